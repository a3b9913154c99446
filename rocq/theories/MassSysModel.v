(** FLOPS based masses of systems and equipment, /repo/aviary/subsystems/mass/flops_based.

    Generated by tools/py2coq.py from the source text; see the header of that file for the rules.  Decimal
    literals are exact and numbers are real numbers. *)
From Coq Require Import Reals.
From Verif Require Import Base Comp MathModel MassDistModel.
Open Scope list_scope.
Open Scope string_scope.
Local Open Scope R_scope.

(** ** Variable names, /repo/aviary/variable_info/variables.py *)
Definition Aircraft_APU_MASS := "aircraft:apu:mass".
Definition Aircraft_APU_MASS_SCALER := "aircraft:apu:mass_scaler".
Definition Aircraft_AirConditioning_MASS := "aircraft:air_conditioning:mass".
Definition Aircraft_AirConditioning_MASS_SCALER := "aircraft:air_conditioning:mass_scaler".
Definition Aircraft_Avionics_MASS := "aircraft:avionics:mass".
Definition Aircraft_Avionics_MASS_SCALER := "aircraft:avionics:mass_scaler".
Definition Aircraft_BWB_NUM_BAYS := "aircraft:blended_wing_body_design:num_bays".
Definition Aircraft_BWB_PASSENGER_LEADING_EDGE_SWEEP :=
    "aircraft:blended_wing_body_design:passenger_leading_edge_sweep".
Definition Aircraft_CrewPayload_Design_NUM_BUSINESS_CLASS := "aircraft:crew_and_payload:design:num_business_class".
Definition Aircraft_CrewPayload_Design_NUM_ECONOMY_CLASS := "aircraft:crew_and_payload:design:num_economy_class".
Definition Aircraft_CrewPayload_Design_NUM_FIRST_CLASS := "aircraft:crew_and_payload:design:num_first_class".
Definition Aircraft_CrewPayload_Design_NUM_PASSENGERS := "aircraft:crew_and_payload:design:num_passengers".
Definition Aircraft_CrewPayload_NUM_FLIGHT_CREW := "aircraft:crew_and_payload:num_flight_crew".
Definition Aircraft_Design_GROSS_MASS := "aircraft:design:gross_mass".
Definition Aircraft_Design_RANGE := "aircraft:design:range".
Definition Aircraft_Design_STRUCTURE_MASS := "aircraft:design:structure_mass".
Definition Aircraft_Design_SYSTEMS_AND_EQUIPMENT_MASS_BASE := "aircraft:design:systems_and_equipment_mass_base".
Definition Aircraft_Electrical_MASS := "aircraft:electrical:mass".
Definition Aircraft_Electrical_MASS_SCALER := "aircraft:electrical:mass_scaler".
Definition Aircraft_Furnishings_MASS := "aircraft:furnishings:mass".
Definition Aircraft_Furnishings_MASS_BASE := "aircraft:furnishings:mass_base".
Definition Aircraft_Furnishings_MASS_SCALER := "aircraft:furnishings:mass_scaler".
Definition Aircraft_Fuselage_CABIN_AREA := "aircraft:fuselage:cabin_area".
Definition Aircraft_Fuselage_LENGTH := "aircraft:fuselage:length".
Definition Aircraft_Fuselage_MAX_HEIGHT := "aircraft:fuselage:max_height".
Definition Aircraft_Fuselage_MAX_WIDTH := "aircraft:fuselage:max_width".
Definition Aircraft_Fuselage_MILITARY_CARGO_FLOOR := "aircraft:fuselage:military_cargo_floor".
Definition Aircraft_Fuselage_NUM_FUSELAGES := "aircraft:fuselage:num_fuselages".
Definition Aircraft_Fuselage_PASSENGER_COMPARTMENT_LENGTH := "aircraft:fuselage:passenger_compartment_length".
Definition Aircraft_Fuselage_PLANFORM_AREA := "aircraft:fuselage:planform_area".
Definition Aircraft_HorizontalTail_THICKNESS_TO_CHORD := "aircraft:horizontal_tail:thickness_to_chord".
Definition Aircraft_HorizontalTail_WETTED_AREA := "aircraft:horizontal_tail:wetted_area".
Definition Aircraft_Hydraulics_MASS := "aircraft:hydraulics:mass".
Definition Aircraft_Hydraulics_MASS_SCALER := "aircraft:hydraulics:mass_scaler".
Definition Aircraft_Hydraulics_SYSTEM_PRESSURE := "aircraft:hydraulics:system_pressure".
Definition Aircraft_Instruments_MASS := "aircraft:instruments:mass".
Definition Aircraft_Instruments_MASS_SCALER := "aircraft:instruments:mass_scaler".
Definition Aircraft_Propulsion_MASS := "aircraft:propulsion:mass".
Definition Aircraft_Propulsion_TOTAL_NUM_ENGINES := "aircraft:propulsion:total_num_engines".
Definition Aircraft_Propulsion_TOTAL_NUM_FUSELAGE_ENGINES := "aircraft:propulsion:total_num_fuselage_engines".
Definition Aircraft_Propulsion_TOTAL_NUM_WING_ENGINES := "aircraft:propulsion:total_num_wing_engines".
Definition Aircraft_VerticalTail_AREA := "aircraft:vertical_tail:area".
Definition Aircraft_Wing_AREA := "aircraft:wing:area".
Definition Aircraft_Wing_CONTROL_SURFACE_AREA := "aircraft:wing:control_surface_area".
Definition Aircraft_Wing_CONTROL_SURFACE_AREA_RATIO := "aircraft:wing:control_surface_area_ratio".
Definition Aircraft_Wing_SURFACE_CONTROL_MASS := "aircraft:wing:surface_control_mass".
Definition Aircraft_Wing_SURFACE_CONTROL_MASS_SCALER := "aircraft:wing:surface_control_mass_scaler".
Definition Aircraft_Wing_VAR_SWEEP_MASS_PENALTY := "aircraft:wing:var_sweep_mass_penalty".
Definition Mission_Constraints_MAX_MACH := "mission:constraints:max_mach".


(** TransportAirCondMass.compute, /repo/aviary/subsystems/mass/flops_based/air_conditioning.py L30-43 *)
Definition TransportAirCondMass_compute (op : options) (e : env) : list (string * R) :=
  let pax := on op Aircraft_CrewPayload_Design_NUM_PASSENGERS in  (* L31 *)
  let scaler := e Aircraft_AirConditioning_MASS_SCALER in  (* L33 *)
  let avionics_wt := e Aircraft_Avionics_MASS * GRAV_ENGLISH_LBM in  (* L34 *)
  let height := e Aircraft_Fuselage_MAX_HEIGHT in  (* L35 *)
  let planform := e Aircraft_Fuselage_PLANFORM_AREA in  (* L36 *)
  let max_mach := on op Mission_Constraints_MAX_MACH in  (* L37 *)
  let o_AirConditioning_MASS := ((32 / 10 * (planform * height) ** (6 / 10) + 9 * pax ** (83 / 100)) * max_mach + 75 /
      1000 * avionics_wt) * scaler / GRAV_ENGLISH_LBM in  (* L39 *)
  [(Aircraft_AirConditioning_MASS, o_AirConditioning_MASS)].

(** TransportAirCondMass.compute_partials, /repo/aviary/subsystems/mass/flops_based/air_conditioning.py L45-70 *)
Definition TransportAirCondMass_partials (op : options) (e : env) : list (string * string * R) :=
  let pax := on op Aircraft_CrewPayload_Design_NUM_PASSENGERS in  (* L46 *)
  let scaler := e Aircraft_AirConditioning_MASS_SCALER in  (* L48 *)
  let avionics_wt := e Aircraft_Avionics_MASS * GRAV_ENGLISH_LBM in  (* L49 *)
  let height := e Aircraft_Fuselage_MAX_HEIGHT in  (* L50 *)
  let planform := e Aircraft_Fuselage_PLANFORM_AREA in  (* L51 *)
  let max_mach := on op Mission_Constraints_MAX_MACH in  (* L52 *)
  let planform_exp := planform ** (6 / 10) in  (* L54 *)
  let height_exp := height ** (6 / 10) in  (* L55 *)
  let pax_exp := pax ** (83 / 100) in  (* L56 *)
  let d_AirConditioning_MASS__AirConditioning_MASS_SCALER := ((32 / 10 * planform_exp * height_exp + 9 * pax_exp) *
      max_mach + 75 / 1000 * avionics_wt) / GRAV_ENGLISH_LBM in  (* L58 *)
  let d_AirConditioning_MASS__Avionics_MASS := 75 / 1000 * scaler in  (* L62 *)
  let d_AirConditioning_MASS__Fuselage_MAX_HEIGHT := 192 / 100 * planform_exp * height ** (- 4 / 10) * max_mach *
      scaler / GRAV_ENGLISH_LBM in  (* L64 *)
  let d_AirConditioning_MASS__Fuselage_PLANFORM_AREA := 192 / 100 * planform ** (- 4 / 10) * height_exp * max_mach *
      scaler / GRAV_ENGLISH_LBM in  (* L68 *)
  [(Aircraft_AirConditioning_MASS, Aircraft_AirConditioning_MASS_SCALER,
      d_AirConditioning_MASS__AirConditioning_MASS_SCALER);
   (Aircraft_AirConditioning_MASS, Aircraft_Avionics_MASS, d_AirConditioning_MASS__Avionics_MASS);
   (Aircraft_AirConditioning_MASS, Aircraft_Fuselage_MAX_HEIGHT, d_AirConditioning_MASS__Fuselage_MAX_HEIGHT);
   (Aircraft_AirConditioning_MASS, Aircraft_Fuselage_PLANFORM_AREA, d_AirConditioning_MASS__Fuselage_PLANFORM_AREA)].

(** Inputs, outputs and declared partials: /repo/aviary/subsystems/mass/flops_based/air_conditioning.py L19-28 *)
Definition TransportAirCondMass (op : options) : comp := {|
  c_ins := [Aircraft_AirConditioning_MASS_SCALER;
            Aircraft_Avionics_MASS;
            Aircraft_Fuselage_MAX_HEIGHT;
            Aircraft_Fuselage_PLANFORM_AREA];
  c_outs := [Aircraft_AirConditioning_MASS];
  c_decl := [(Aircraft_AirConditioning_MASS, Aircraft_AirConditioning_MASS_SCALER, 0);
             (Aircraft_AirConditioning_MASS, Aircraft_Avionics_MASS, 0);
             (Aircraft_AirConditioning_MASS, Aircraft_Fuselage_MAX_HEIGHT, 0);
             (Aircraft_AirConditioning_MASS, Aircraft_Fuselage_PLANFORM_AREA, 0)];
  c_run := TransportAirCondMass_compute op; c_jac := TransportAirCondMass_partials op |}.

(** AltAirCondMass.compute, /repo/aviary/subsystems/mass/flops_based/air_conditioning.py L91-96 *)
Definition AltAirCondMass_compute (op : options) (e : env) : list (string * R) :=
  let num_pax := on op Aircraft_CrewPayload_Design_NUM_PASSENGERS in  (* L92 *)
  let scaler := e Aircraft_AirConditioning_MASS_SCALER in  (* L94 *)
  let o_AirConditioning_MASS := 26 * num_pax * scaler / GRAV_ENGLISH_LBM in  (* L96 *)
  [(Aircraft_AirConditioning_MASS, o_AirConditioning_MASS)].

(** AltAirCondMass.compute_partials, /repo/aviary/subsystems/mass/flops_based/air_conditioning.py L98-103 *)
Definition AltAirCondMass_partials (op : options) (e : env) : list (string * string * R) :=
  let num_pax := on op Aircraft_CrewPayload_Design_NUM_PASSENGERS in  (* L99 *)
  let d_AirConditioning_MASS__AirConditioning_MASS_SCALER := 26 * num_pax / GRAV_ENGLISH_LBM in  (* L101 *)
  [(Aircraft_AirConditioning_MASS, Aircraft_AirConditioning_MASS_SCALER,
      d_AirConditioning_MASS__AirConditioning_MASS_SCALER)].

(** Inputs, outputs and declared partials: /repo/aviary/subsystems/mass/flops_based/air_conditioning.py L83-89 *)
Definition AltAirCondMass (op : options) : comp := {|
  c_ins := [Aircraft_AirConditioning_MASS_SCALER];
  c_outs := [Aircraft_AirConditioning_MASS];
  c_decl := [(Aircraft_AirConditioning_MASS, Aircraft_AirConditioning_MASS_SCALER, 0)];
  c_run := AltAirCondMass_compute op; c_jac := AltAirCondMass_partials op |}.

(** TransportAPUMass.compute, /repo/aviary/subsystems/mass/flops_based/apu.py L26-33 *)
Definition TransportAPUMass_compute (op : options) (e : env) : list (string * R) :=
  let pax := on op Aircraft_CrewPayload_Design_NUM_PASSENGERS in  (* L27 *)
  let scaler := e Aircraft_APU_MASS_SCALER in  (* L28 *)
  let planform := e Aircraft_Fuselage_PLANFORM_AREA in  (* L29 *)
  let o_APU_MASS := (54 * planform ** (3 / 10) + 54 / 10 * pax ** (9 / 10)) * scaler / GRAV_ENGLISH_LBM in  (* L31 *)
  [(Aircraft_APU_MASS, o_APU_MASS)].

(** TransportAPUMass.compute_partials, /repo/aviary/subsystems/mass/flops_based/apu.py L35-45 *)
Definition TransportAPUMass_partials (op : options) (e : env) : list (string * string * R) :=
  let pax := on op Aircraft_CrewPayload_Design_NUM_PASSENGERS in  (* L36 *)
  let scaler := e Aircraft_APU_MASS_SCALER in  (* L37 *)
  let planform := e Aircraft_Fuselage_PLANFORM_AREA in  (* L38 *)
  let d_APU_MASS__APU_MASS_SCALER := (54 * planform ** (3 / 10) + 54 / 10 * pax ** (9 / 10)) / GRAV_ENGLISH_LBM in  (* L40 *)
  let d_APU_MASS__Fuselage_PLANFORM_AREA := 162 / 10 * planform ** (- 7 / 10) * scaler / GRAV_ENGLISH_LBM in  (* L43 *)
  [(Aircraft_APU_MASS, Aircraft_APU_MASS_SCALER, d_APU_MASS__APU_MASS_SCALER);
   (Aircraft_APU_MASS, Aircraft_Fuselage_PLANFORM_AREA, d_APU_MASS__Fuselage_PLANFORM_AREA)].

(** Inputs, outputs and declared partials: /repo/aviary/subsystems/mass/flops_based/apu.py L17-24 *)
Definition TransportAPUMass (op : options) : comp := {|
  c_ins := [Aircraft_APU_MASS_SCALER;
            Aircraft_Fuselage_PLANFORM_AREA];
  c_outs := [Aircraft_APU_MASS];
  c_decl := [(Aircraft_APU_MASS, Aircraft_APU_MASS_SCALER, 0);
             (Aircraft_APU_MASS, Aircraft_Fuselage_PLANFORM_AREA, 0)];
  c_run := TransportAPUMass_compute op; c_jac := TransportAPUMass_partials op |}.

(** TransportAvionicsMass.compute, /repo/aviary/subsystems/mass/flops_based/avionics.py L28-36 *)
Definition TransportAvionicsMass_compute (op : options) (e : env) : list (string * R) :=
  let crew := on op Aircraft_CrewPayload_NUM_FLIGHT_CREW in  (* L29 *)
  let scaler := e Aircraft_Avionics_MASS_SCALER in  (* L30 *)
  let planform := e Aircraft_Fuselage_PLANFORM_AREA in  (* L31 *)
  let des_range := e Aircraft_Design_RANGE in  (* L32 *)
  let o_Avionics_MASS := 158 / 10 * des_range ** (1 / 10) * crew ** (7 / 10) * planform ** (43 / 100) * scaler /
      GRAV_ENGLISH_LBM in  (* L34 *)
  [(Aircraft_Avionics_MASS, o_Avionics_MASS)].

(** TransportAvionicsMass.compute_partials, /repo/aviary/subsystems/mass/flops_based/avionics.py L38-58 *)
Definition TransportAvionicsMass_partials (op : options) (e : env) : list (string * string * R) :=
  let crew := on op Aircraft_CrewPayload_NUM_FLIGHT_CREW in  (* L39 *)
  let scaler := e Aircraft_Avionics_MASS_SCALER in  (* L40 *)
  let planform := e Aircraft_Fuselage_PLANFORM_AREA in  (* L41 *)
  let des_range := e Aircraft_Design_RANGE in  (* L42 *)
  let des_range_exp := des_range ** (1 / 10) in  (* L44 *)
  let crew_exp := crew ** (7 / 10) in  (* L45 *)
  let planform_exp := planform ** (43 / 100) in  (* L46 *)
  let d_Avionics_MASS__Avionics_MASS_SCALER := 158 / 10 * des_range_exp * crew_exp * planform_exp / GRAV_ENGLISH_LBM
      in  (* L48 *)
  let d_Avionics_MASS__Fuselage_PLANFORM_AREA := 6794 / 1000 * des_range_exp * crew_exp * planform ** (- 57 / 100) *
      scaler / GRAV_ENGLISH_LBM in  (* L52 *)
  let d_Avionics_MASS__Design_RANGE := 158 / 100 * des_range ** (- 9 / 10) * crew_exp * planform_exp * scaler /
      GRAV_ENGLISH_LBM in  (* L56 *)
  [(Aircraft_Avionics_MASS, Aircraft_Avionics_MASS_SCALER, d_Avionics_MASS__Avionics_MASS_SCALER);
   (Aircraft_Avionics_MASS, Aircraft_Fuselage_PLANFORM_AREA, d_Avionics_MASS__Fuselage_PLANFORM_AREA);
   (Aircraft_Avionics_MASS, Aircraft_Design_RANGE, d_Avionics_MASS__Design_RANGE)].

(** Inputs, outputs and declared partials: /repo/aviary/subsystems/mass/flops_based/avionics.py L18-26 *)
Definition TransportAvionicsMass (op : options) : comp := {|
  c_ins := [Aircraft_Avionics_MASS_SCALER;
            Aircraft_Fuselage_PLANFORM_AREA;
            Aircraft_Design_RANGE];
  c_outs := [Aircraft_Avionics_MASS];
  c_decl := [(Aircraft_Avionics_MASS, Aircraft_Avionics_MASS_SCALER, 0);
             (Aircraft_Avionics_MASS, Aircraft_Fuselage_PLANFORM_AREA, 0);
             (Aircraft_Avionics_MASS, Aircraft_Design_RANGE, 0)];
  c_run := TransportAvionicsMass_compute op; c_jac := TransportAvionicsMass_partials op |}.

(** ElectricalMass.compute, /repo/aviary/subsystems/mass/flops_based/electrical.py L31-51 *)
Definition ElectricalMass_compute (op : options) (e : env) : list (string * R) :=
  let nfuse := on op Aircraft_Fuselage_NUM_FUSELAGES in  (* L32 *)
  let ncrew := on op Aircraft_CrewPayload_NUM_FLIGHT_CREW in  (* L33 *)
  let npass := on op Aircraft_CrewPayload_Design_NUM_PASSENGERS in  (* L34 *)
  let length_ := e Aircraft_Fuselage_LENGTH in  (* L36 *)
  let width := e Aircraft_Fuselage_MAX_WIDTH in  (* L37 *)
  let num_eng := on op Aircraft_Propulsion_TOTAL_NUM_ENGINES in  (* L38 *)
  let num_engines_factor := distributed_engine_count_factor num_eng in  (* L39 *)
  let mass_scaler := e Aircraft_Electrical_MASS_SCALER in  (* L40 *)
  let o_Electrical_MASS := 92 * length_ ** (4 / 10) * width ** (14 / 100) * nfuse ** (27 / 100) * num_engines_factor
      ** (69 / 100) * (1 + 44 / 1000 * ncrew + 15 / 10000 * npass) * mass_scaler / GRAV_ENGLISH_LBM in  (* L42 *)
  [(Aircraft_Electrical_MASS, o_Electrical_MASS)].

(** ElectricalMass.compute_partials, /repo/aviary/subsystems/mass/flops_based/electrical.py L53-79 *)
Definition ElectricalMass_partials (op : options) (e : env) : list (string * string * R) :=
  let nfuse := on op Aircraft_Fuselage_NUM_FUSELAGES in  (* L54 *)
  let ncrew := on op Aircraft_CrewPayload_NUM_FLIGHT_CREW in  (* L55 *)
  let npass := on op Aircraft_CrewPayload_Design_NUM_PASSENGERS in  (* L56 *)
  let length_ := e Aircraft_Fuselage_LENGTH in  (* L58 *)
  let width := e Aircraft_Fuselage_MAX_WIDTH in  (* L59 *)
  let num_eng := on op Aircraft_Propulsion_TOTAL_NUM_ENGINES in  (* L60 *)
  let num_engines_factor := distributed_engine_count_factor num_eng in  (* L61 *)
  let mass_scaler := e Aircraft_Electrical_MASS_SCALER in  (* L62 *)
  let fact := 92 * nfuse ** (27 / 100) * (1 + 44 / 1000 * ncrew + 15 / 10000 * npass) in  (* L64 *)
  let length_fact := length_ ** (4 / 10) in  (* L65 *)
  let width_fact := width ** (14 / 100) in  (* L66 *)
  let ecf_fact := num_engines_factor ** (69 / 100) in  (* L67 *)
  let d_Electrical_MASS__Fuselage_LENGTH := 4 / 10 * length_ ** (- 6 / 10) * fact * width_fact * ecf_fact *
      mass_scaler / GRAV_ENGLISH_LBM in  (* L69 *)
  let d_Electrical_MASS__Fuselage_MAX_WIDTH := 14 / 100 * width ** (- 86 / 100) * fact * length_fact * ecf_fact *
      mass_scaler / GRAV_ENGLISH_LBM in  (* L73 *)
  let d_Electrical_MASS__Electrical_MASS_SCALER := fact * length_fact * ecf_fact * width_fact / GRAV_ENGLISH_LBM in  (* L77 *)
  [(Aircraft_Electrical_MASS, Aircraft_Fuselage_LENGTH, d_Electrical_MASS__Fuselage_LENGTH);
   (Aircraft_Electrical_MASS, Aircraft_Fuselage_MAX_WIDTH, d_Electrical_MASS__Fuselage_MAX_WIDTH);
   (Aircraft_Electrical_MASS, Aircraft_Electrical_MASS_SCALER, d_Electrical_MASS__Electrical_MASS_SCALER)].

(** Inputs, outputs and declared partials: /repo/aviary/subsystems/mass/flops_based/electrical.py L21-29 *)
Definition ElectricalMass (op : options) : comp := {|
  c_ins := [Aircraft_Fuselage_LENGTH;
            Aircraft_Fuselage_MAX_WIDTH;
            Aircraft_Electrical_MASS_SCALER];
  c_outs := [Aircraft_Electrical_MASS];
  c_decl := [(Aircraft_Electrical_MASS, Aircraft_Fuselage_LENGTH, 0);
             (Aircraft_Electrical_MASS, Aircraft_Fuselage_MAX_WIDTH, 0);
             (Aircraft_Electrical_MASS, Aircraft_Electrical_MASS_SCALER, 0)];
  c_run := ElectricalMass_compute op; c_jac := ElectricalMass_partials op |}.

(** AltElectricalMass.compute, /repo/aviary/subsystems/mass/flops_based/electrical.py L96-100 *)
Definition AltElectricalMass_compute (op : options) (e : env) : list (string * R) :=
  let npass := on op Aircraft_CrewPayload_Design_NUM_PASSENGERS in  (* L97 *)
  let mass_scaler := e Aircraft_Electrical_MASS_SCALER in  (* L98 *)
  let o_Electrical_MASS := 163 / 10 * npass * mass_scaler / GRAV_ENGLISH_LBM in  (* L100 *)
  [(Aircraft_Electrical_MASS, o_Electrical_MASS)].

(** AltElectricalMass.compute_partials, /repo/aviary/subsystems/mass/flops_based/electrical.py L102-107 *)
Definition AltElectricalMass_partials (op : options) (e : env) : list (string * string * R) :=
  let npass := on op Aircraft_CrewPayload_Design_NUM_PASSENGERS in  (* L103 *)
  let d_Electrical_MASS__Electrical_MASS_SCALER := 163 / 10 * npass / GRAV_ENGLISH_LBM in  (* L105 *)
  [(Aircraft_Electrical_MASS, Aircraft_Electrical_MASS_SCALER, d_Electrical_MASS__Electrical_MASS_SCALER)].

(** Inputs, outputs and declared partials: /repo/aviary/subsystems/mass/flops_based/electrical.py L88-94 *)
Definition AltElectricalMass (op : options) : comp := {|
  c_ins := [Aircraft_Electrical_MASS_SCALER];
  c_outs := [Aircraft_Electrical_MASS];
  c_decl := [(Aircraft_Electrical_MASS, Aircraft_Electrical_MASS_SCALER, 0)];
  c_run := AltElectricalMass_compute op; c_jac := AltElectricalMass_partials op |}.

(** TransportHydraulicsGroupMass.compute, /repo/aviary/subsystems/mass/flops_based/hydraulics.py L35-62 *)
Definition TransportHydraulicsGroupMass_compute (op : options) (e : env) : list (string * R) :=
  let num_wing_eng := on op Aircraft_Propulsion_TOTAL_NUM_WING_ENGINES in  (* L36 *)
  let num_fuse_eng := on op Aircraft_Propulsion_TOTAL_NUM_FUSELAGE_ENGINES in  (* L37 *)
  let num_wing_eng_fact := distributed_engine_count_factor num_wing_eng in  (* L38 *)
  let num_fuse_eng_fact := distributed_engine_count_factor num_fuse_eng in  (* L39 *)
  let planform := e Aircraft_Fuselage_PLANFORM_AREA in  (* L41 *)
  let sys_press := e Aircraft_Hydraulics_SYSTEM_PRESSURE in  (* L42 *)
  let scaler := e Aircraft_Hydraulics_MASS_SCALER in  (* L43 *)
  let area := e Aircraft_Wing_AREA in  (* L44 *)
  let var_sweep := e Aircraft_Wing_VAR_SWEEP_MASS_PENALTY in  (* L45 *)
  let max_mach := on op Mission_Constraints_MAX_MACH in  (* L46 *)
  let o_Hydraulics_MASS :=  (* L48 *)
    if leb sys_press 0 then
      let o_Hydraulics_MASS := 0 in  (* L50 *)
      o_Hydraulics_MASS
    else
      let o_Hydraulics_MASS := 57 / 100 * (planform + 27 / 100 * area) * (1 + 3 / 100 * num_wing_eng_fact + 5 / 100 *
          num_fuse_eng_fact) * (3000 / sys_press) ** (35 / 100) * (1 + 4 / 100 * var_sweep) * max_mach ** (33 / 100) *
          scaler / GRAV_ENGLISH_LBM in  (* L53 *)
      o_Hydraulics_MASS in
  [(Aircraft_Hydraulics_MASS, o_Hydraulics_MASS)].

(** TransportHydraulicsGroupMass.compute_partials, /repo/aviary/subsystems/mass/flops_based/hydraulics.py L64-117 *)
Definition TransportHydraulicsGroupMass_partials (op : options) (e : env) : list (string * string * R) :=
  let num_wing_eng := on op Aircraft_Propulsion_TOTAL_NUM_WING_ENGINES in  (* L65 *)
  let num_fuse_eng := on op Aircraft_Propulsion_TOTAL_NUM_FUSELAGE_ENGINES in  (* L66 *)
  let num_wing_eng_fact := distributed_engine_count_factor num_wing_eng in  (* L67 *)
  let num_fuse_eng_fact := distributed_engine_count_factor num_fuse_eng in  (* L68 *)
  let planform := e Aircraft_Fuselage_PLANFORM_AREA in  (* L70 *)
  let sys_press := e Aircraft_Hydraulics_SYSTEM_PRESSURE in  (* L71 *)
  let scaler := e Aircraft_Hydraulics_MASS_SCALER in  (* L72 *)
  let area := e Aircraft_Wing_AREA in  (* L73 *)
  let var_sweep := e Aircraft_Wing_VAR_SWEEP_MASS_PENALTY in  (* L74 *)
  let max_mach := on op Mission_Constraints_MAX_MACH in  (* L75 *)
  let term1 := planform + 27 / 100 * area in  (* L77 *)
  let term2 := 1 + 3 / 100 * num_wing_eng_fact + 5 / 100 * num_fuse_eng_fact in  (* L78 *)
  let term3 := (3000 / sys_press) ** (35 / 100) in  (* L79 *)
  let term4 := 1 + 4 / 100 * var_sweep in  (* L80 *)
  let term5 := max_mach ** (33 / 100) in  (* L81 *)
  let '(d_Hydraulics_MASS__Fuselage_PLANFORM_AREA, d_Hydraulics_MASS__Wing_AREA,
      d_Hydraulics_MASS__Hydraulics_SYSTEM_PRESSURE, d_Hydraulics_MASS__Wing_VAR_SWEEP_MASS_PENALTY,
      d_Hydraulics_MASS__Hydraulics_MASS_SCALER) :=  (* L83 *)
    if leb sys_press 0 then
      let d_Hydraulics_MASS__Fuselage_PLANFORM_AREA := 0 in  (* L85 *)
      let d_Hydraulics_MASS__Wing_AREA := 0 in  (* L86 *)
      let d_Hydraulics_MASS__Hydraulics_SYSTEM_PRESSURE := 0 in  (* L87 *)
      let d_Hydraulics_MASS__Wing_VAR_SWEEP_MASS_PENALTY := 0 in  (* L88 *)
      let d_Hydraulics_MASS__Hydraulics_MASS_SCALER := 0 in  (* L89 *)
      (d_Hydraulics_MASS__Fuselage_PLANFORM_AREA, d_Hydraulics_MASS__Wing_AREA,
          d_Hydraulics_MASS__Hydraulics_SYSTEM_PRESSURE, d_Hydraulics_MASS__Wing_VAR_SWEEP_MASS_PENALTY,
          d_Hydraulics_MASS__Hydraulics_MASS_SCALER)
    else
      let d_Hydraulics_MASS__Fuselage_PLANFORM_AREA := 57 / 100 * term2 * term3 * term4 * term5 * scaler /
          GRAV_ENGLISH_LBM in  (* L92 *)
      let d_Hydraulics_MASS__Wing_AREA := 1539 / 10000 * term2 * term3 * term4 * term5 * scaler / GRAV_ENGLISH_LBM in  (* L96 *)
      let d_Hydraulics_MASS__Hydraulics_SYSTEM_PRESSURE := - 3288026727706387 / 1000000000000000 * term1 * term2 *
          sys_press ** (- 135 / 100) * term4 * term5 * scaler / GRAV_ENGLISH_LBM in  (* L100 *)
      let d_Hydraulics_MASS__Wing_VAR_SWEEP_MASS_PENALTY := 228 / 10000 * term1 * term2 * term3 * term5 * scaler /
          GRAV_ENGLISH_LBM in  (* L111 *)
      let d_Hydraulics_MASS__Hydraulics_MASS_SCALER := 57 / 100 * term1 * term2 * term3 * term4 * term5 /
          GRAV_ENGLISH_LBM in  (* L115 *)
      (d_Hydraulics_MASS__Fuselage_PLANFORM_AREA, d_Hydraulics_MASS__Wing_AREA,
          d_Hydraulics_MASS__Hydraulics_SYSTEM_PRESSURE, d_Hydraulics_MASS__Wing_VAR_SWEEP_MASS_PENALTY,
          d_Hydraulics_MASS__Hydraulics_MASS_SCALER) in
  [(Aircraft_Hydraulics_MASS, Aircraft_Fuselage_PLANFORM_AREA, d_Hydraulics_MASS__Fuselage_PLANFORM_AREA);
   (Aircraft_Hydraulics_MASS, Aircraft_Wing_AREA, d_Hydraulics_MASS__Wing_AREA);
   (Aircraft_Hydraulics_MASS, Aircraft_Hydraulics_SYSTEM_PRESSURE, d_Hydraulics_MASS__Hydraulics_SYSTEM_PRESSURE);
   (Aircraft_Hydraulics_MASS, Aircraft_Wing_VAR_SWEEP_MASS_PENALTY, d_Hydraulics_MASS__Wing_VAR_SWEEP_MASS_PENALTY);
   (Aircraft_Hydraulics_MASS, Aircraft_Hydraulics_MASS_SCALER, d_Hydraulics_MASS__Hydraulics_MASS_SCALER)].

(** Inputs, outputs and declared partials: /repo/aviary/subsystems/mass/flops_based/hydraulics.py L23-33 *)
Definition TransportHydraulicsGroupMass (op : options) : comp := {|
  c_ins := [Aircraft_Fuselage_PLANFORM_AREA;
            Aircraft_Hydraulics_SYSTEM_PRESSURE;
            Aircraft_Hydraulics_MASS_SCALER;
            Aircraft_Wing_AREA;
            Aircraft_Wing_VAR_SWEEP_MASS_PENALTY];
  c_outs := [Aircraft_Hydraulics_MASS];
  c_decl := [(Aircraft_Hydraulics_MASS, Aircraft_Fuselage_PLANFORM_AREA, 0);
             (Aircraft_Hydraulics_MASS, Aircraft_Hydraulics_SYSTEM_PRESSURE, 0);
             (Aircraft_Hydraulics_MASS, Aircraft_Hydraulics_MASS_SCALER, 0);
             (Aircraft_Hydraulics_MASS, Aircraft_Wing_AREA, 0);
             (Aircraft_Hydraulics_MASS, Aircraft_Wing_VAR_SWEEP_MASS_PENALTY, 0)];
  c_run := TransportHydraulicsGroupMass_compute op; c_jac := TransportHydraulicsGroupMass_partials op |}.

(** AltHydraulicsGroupMass.compute, /repo/aviary/subsystems/mass/flops_based/hydraulics.py L139-151 *)
Definition AltHydraulicsGroupMass_compute (op : options) (e : env) : list (string * R) :=
  let area := e Aircraft_Wing_AREA in  (* L140 *)
  let horiz_wetted_area := e Aircraft_HorizontalTail_WETTED_AREA in  (* L141 *)
  let horiz_thick_chord := e Aircraft_HorizontalTail_THICKNESS_TO_CHORD in  (* L142 *)
  let vert_area := e Aircraft_VerticalTail_AREA in  (* L143 *)
  let scaler := e Aircraft_Hydraulics_MASS_SCALER in  (* L144 *)
  let o_Hydraulics_MASS := 6053 / 10000 * (area + 144 / 100 * (horiz_wetted_area / (2 + 387 / 1000 *
      horiz_thick_chord) + vert_area)) * scaler / GRAV_ENGLISH_LBM in  (* L146 *)
  [(Aircraft_Hydraulics_MASS, o_Hydraulics_MASS)].

(** AltHydraulicsGroupMass.compute_partials, /repo/aviary/subsystems/mass/flops_based/hydraulics.py L153-183 *)
Definition AltHydraulicsGroupMass_partials (op : options) (e : env) : list (string * string * R) :=
  let area := e Aircraft_Wing_AREA in  (* L154 *)
  let horiz_wetted_area := e Aircraft_HorizontalTail_WETTED_AREA in  (* L155 *)
  let horiz_thick_chord := e Aircraft_HorizontalTail_THICKNESS_TO_CHORD in  (* L156 *)
  let thick_chord_term := 2 + 387 / 1000 * e Aircraft_HorizontalTail_THICKNESS_TO_CHORD in  (* L157 *)
  let vert_area := e Aircraft_VerticalTail_AREA in  (* L158 *)
  let scaler := e Aircraft_Hydraulics_MASS_SCALER in  (* L159 *)
  let d_Hydraulics_MASS__Wing_AREA := 6053 / 10000 * scaler / GRAV_ENGLISH_LBM in  (* L161 *)
  let d_Hydraulics_MASS__HorizontalTail_WETTED_AREA := 871632 / 1000000 / thick_chord_term * scaler / GRAV_ENGLISH_LBM
      in  (* L163 *)
  let d_Hydraulics_MASS__HorizontalTail_THICKNESS_TO_CHORD := - 337321584 / 1000000000 * horiz_wetted_area /
      (thick_chord_term * thick_chord_term) * scaler / GRAV_ENGLISH_LBM in  (* L167 *)
  let d_Hydraulics_MASS__VerticalTail_AREA := 871632 / 1000000 * scaler / GRAV_ENGLISH_LBM in  (* L175 *)
  let d_Hydraulics_MASS__Hydraulics_MASS_SCALER := 6053 / 10000 * (area + 144 / 100 * (horiz_wetted_area / (2 + 387 /
      1000 * horiz_thick_chord) + vert_area)) / GRAV_ENGLISH_LBM in  (* L179 *)
  [(Aircraft_Hydraulics_MASS, Aircraft_Wing_AREA, d_Hydraulics_MASS__Wing_AREA);
   (Aircraft_Hydraulics_MASS, Aircraft_HorizontalTail_WETTED_AREA, d_Hydraulics_MASS__HorizontalTail_WETTED_AREA);
   (Aircraft_Hydraulics_MASS, Aircraft_HorizontalTail_THICKNESS_TO_CHORD,
       d_Hydraulics_MASS__HorizontalTail_THICKNESS_TO_CHORD);
   (Aircraft_Hydraulics_MASS, Aircraft_VerticalTail_AREA, d_Hydraulics_MASS__VerticalTail_AREA);
   (Aircraft_Hydraulics_MASS, Aircraft_Hydraulics_MASS_SCALER, d_Hydraulics_MASS__Hydraulics_MASS_SCALER)].

(** Inputs, outputs and declared partials: /repo/aviary/subsystems/mass/flops_based/hydraulics.py L127-137 *)
Definition AltHydraulicsGroupMass (op : options) : comp := {|
  c_ins := [Aircraft_Wing_AREA;
            Aircraft_HorizontalTail_WETTED_AREA;
            Aircraft_HorizontalTail_THICKNESS_TO_CHORD;
            Aircraft_VerticalTail_AREA;
            Aircraft_Hydraulics_MASS_SCALER];
  c_outs := [Aircraft_Hydraulics_MASS];
  c_decl := [(Aircraft_Hydraulics_MASS, Aircraft_Wing_AREA, 0);
             (Aircraft_Hydraulics_MASS, Aircraft_HorizontalTail_WETTED_AREA, 0);
             (Aircraft_Hydraulics_MASS, Aircraft_HorizontalTail_THICKNESS_TO_CHORD, 0);
             (Aircraft_Hydraulics_MASS, Aircraft_VerticalTail_AREA, 0);
             (Aircraft_Hydraulics_MASS, Aircraft_Hydraulics_MASS_SCALER, 0)];
  c_run := AltHydraulicsGroupMass_compute op; c_jac := AltHydraulicsGroupMass_partials op |}.

(** TransportInstrumentMass.compute, /repo/aviary/subsystems/mass/flops_based/instruments.py L32-50 *)
Definition TransportInstrumentMass_compute (op : options) (e : env) : list (string * R) :=
  let num_crew := on op Aircraft_CrewPayload_NUM_FLIGHT_CREW in  (* L33 *)
  let num_wing_eng := on op Aircraft_Propulsion_TOTAL_NUM_WING_ENGINES in  (* L34 *)
  let num_fuse_eng := on op Aircraft_Propulsion_TOTAL_NUM_FUSELAGE_ENGINES in  (* L35 *)
  let num_wing_eng_fact := distributed_engine_count_factor num_wing_eng in  (* L36 *)
  let num_fuse_eng_fact := distributed_engine_count_factor num_fuse_eng in  (* L37 *)
  let fuse_area := e Aircraft_Fuselage_PLANFORM_AREA in  (* L39 *)
  let max_mach := on op Mission_Constraints_MAX_MACH in  (* L40 *)
  let mass_scaler := e Aircraft_Instruments_MASS_SCALER in  (* L41 *)
  let instrument_weight := 48 / 100 * fuse_area ** (57 / 100) * max_mach ** (5 / 10) * (10 + 25 / 10 * num_crew +
      num_wing_eng_fact + 15 / 10 * num_fuse_eng_fact) in  (* L43 *)
  let o_Instruments_MASS := instrument_weight * mass_scaler / GRAV_ENGLISH_LBM in  (* L50 *)
  [(Aircraft_Instruments_MASS, o_Instruments_MASS)].

(** TransportInstrumentMass.compute_partials, /repo/aviary/subsystems/mass/flops_based/instruments.py L52-73 *)
Definition TransportInstrumentMass_partials (op : options) (e : env) : list (string * string * R) :=
  let num_crew := on op Aircraft_CrewPayload_NUM_FLIGHT_CREW in  (* L53 *)
  let num_wing_eng := on op Aircraft_Propulsion_TOTAL_NUM_WING_ENGINES in  (* L54 *)
  let num_fuse_eng := on op Aircraft_Propulsion_TOTAL_NUM_FUSELAGE_ENGINES in  (* L55 *)
  let num_wing_eng_fact := distributed_engine_count_factor num_wing_eng in  (* L56 *)
  let num_fuse_eng_fact := distributed_engine_count_factor num_fuse_eng in  (* L57 *)
  let fuse_area := e Aircraft_Fuselage_PLANFORM_AREA in  (* L59 *)
  let max_mach := on op Mission_Constraints_MAX_MACH in  (* L60 *)
  let mass_scaler := e Aircraft_Instruments_MASS_SCALER in  (* L61 *)
  let fact := 10 + 25 / 10 * num_crew + num_wing_eng_fact + 15 / 10 * num_fuse_eng_fact in  (* L63 *)
  let area_fact := fuse_area ** (57 / 100) in  (* L64 *)
  let mach_fact := max_mach ** (5 / 10) in  (* L65 *)
  let d_Instruments_MASS__Fuselage_PLANFORM_AREA := 2736 / 10000 * fuse_area ** (- 43 / 100) * mach_fact * fact *
      mass_scaler / GRAV_ENGLISH_LBM in  (* L67 *)
  let d_Instruments_MASS__Instruments_MASS_SCALER := 48 / 100 * area_fact * mach_fact * fact / GRAV_ENGLISH_LBM in  (* L71 *)
  [(Aircraft_Instruments_MASS, Aircraft_Fuselage_PLANFORM_AREA, d_Instruments_MASS__Fuselage_PLANFORM_AREA);
   (Aircraft_Instruments_MASS, Aircraft_Instruments_MASS_SCALER, d_Instruments_MASS__Instruments_MASS_SCALER)].

(** Inputs, outputs and declared partials: /repo/aviary/subsystems/mass/flops_based/instruments.py L24-30 *)
Definition TransportInstrumentMass (op : options) : comp := {|
  c_ins := [Aircraft_Fuselage_PLANFORM_AREA;
            Aircraft_Instruments_MASS_SCALER];
  c_outs := [Aircraft_Instruments_MASS];
  c_decl := [(Aircraft_Instruments_MASS, Aircraft_Fuselage_PLANFORM_AREA, 0);
             (Aircraft_Instruments_MASS, Aircraft_Instruments_MASS_SCALER, 0)];
  c_run := TransportInstrumentMass_compute op; c_jac := TransportInstrumentMass_partials op |}.

(** TransportFurnishingsGroupMass.compute, /repo/aviary/subsystems/mass/flops_based/furnishings.py L33-54 *)
Definition TransportFurnishingsGroupMass_compute (op : options) (e : env) : list (string * R) :=
  let flight_crew_count := on op Aircraft_CrewPayload_NUM_FLIGHT_CREW in  (* L34 *)
  let first_class_count := on op Aircraft_CrewPayload_Design_NUM_FIRST_CLASS in  (* L35 *)
  let business_class_count := on op Aircraft_CrewPayload_Design_NUM_BUSINESS_CLASS in  (* L36 *)
  let economy_class_count := on op Aircraft_CrewPayload_Design_NUM_ECONOMY_CLASS in  (* L37 *)
  let fuse_count := on op Aircraft_Fuselage_NUM_FUSELAGES in  (* L39 *)
  let scaler := e Aircraft_Furnishings_MASS_SCALER in  (* L41 *)
  let pax_compart_length := e Aircraft_Fuselage_PASSENGER_COMPARTMENT_LENGTH in  (* L43 *)
  let fuse_max_width := e Aircraft_Fuselage_MAX_WIDTH in  (* L45 *)
  let fuse_max_height := e Aircraft_Fuselage_MAX_HEIGHT in  (* L46 *)
  let o_Furnishings_MASS := (127 * flight_crew_count + 112 * first_class_count + 78 * business_class_count + 44 *
      economy_class_count + 26 / 10 * pax_compart_length * (fuse_max_width + fuse_max_height) * fuse_count) * scaler
      in  (* L48 *)
  [(Aircraft_Furnishings_MASS, o_Furnishings_MASS)].

(** TransportFurnishingsGroupMass.compute_partials, /repo/aviary/subsystems/mass/flops_based/furnishings.py L56-84 *)
Definition TransportFurnishingsGroupMass_partials (op : options) (e : env) : list (string * string * R) :=
  let flight_crew_count := on op Aircraft_CrewPayload_NUM_FLIGHT_CREW in  (* L57 *)
  let first_class_count := on op Aircraft_CrewPayload_Design_NUM_FIRST_CLASS in  (* L58 *)
  let business_class_count := on op Aircraft_CrewPayload_Design_NUM_BUSINESS_CLASS in  (* L59 *)
  let economy_class_count := on op Aircraft_CrewPayload_Design_NUM_ECONOMY_CLASS in  (* L60 *)
  let fuse_count := on op Aircraft_Fuselage_NUM_FUSELAGES in  (* L62 *)
  let scaler := e Aircraft_Furnishings_MASS_SCALER in  (* L64 *)
  let fuse_max_width := e Aircraft_Fuselage_MAX_WIDTH in  (* L65 *)
  let fuse_max_height := e Aircraft_Fuselage_MAX_HEIGHT in  (* L66 *)
  let pax_compart_length := e Aircraft_Fuselage_PASSENGER_COMPARTMENT_LENGTH in  (* L68 *)
  let d_Furnishings_MASS__Furnishings_MASS_SCALER := 127 * flight_crew_count + 112 * first_class_count + 78 *
      business_class_count + 44 * economy_class_count + 26 / 10 * pax_compart_length * (fuse_max_width +
      fuse_max_height) * fuse_count in  (* L70 *)
  let d_Furnishings_MASS__Fuselage_PASSENGER_COMPARTMENT_LENGTH := 26 / 10 * scaler * (fuse_max_width +
      fuse_max_height) * fuse_count in  (* L78 *)
  let d_Furnishings_MASS__Fuselage_MAX_WIDTH := 26 / 10 * scaler * pax_compart_length * fuse_count in  (* L82 *)
  let d_Furnishings_MASS__Fuselage_MAX_HEIGHT := d_Furnishings_MASS__Fuselage_MAX_WIDTH in  (* L82 *)
  [(Aircraft_Furnishings_MASS, Aircraft_Furnishings_MASS_SCALER, d_Furnishings_MASS__Furnishings_MASS_SCALER);
   (Aircraft_Furnishings_MASS, Aircraft_Fuselage_PASSENGER_COMPARTMENT_LENGTH,
       d_Furnishings_MASS__Fuselage_PASSENGER_COMPARTMENT_LENGTH);
   (Aircraft_Furnishings_MASS, Aircraft_Fuselage_MAX_WIDTH, d_Furnishings_MASS__Fuselage_MAX_WIDTH);
   (Aircraft_Furnishings_MASS, Aircraft_Fuselage_MAX_HEIGHT, d_Furnishings_MASS__Fuselage_MAX_HEIGHT)].

(** Inputs, outputs and declared partials: /repo/aviary/subsystems/mass/flops_based/furnishings.py L22-31 *)
Definition TransportFurnishingsGroupMass (op : options) : comp := {|
  c_ins := [Aircraft_Furnishings_MASS_SCALER;
            Aircraft_Fuselage_PASSENGER_COMPARTMENT_LENGTH;
            Aircraft_Fuselage_MAX_WIDTH;
            Aircraft_Fuselage_MAX_HEIGHT];
  c_outs := [Aircraft_Furnishings_MASS];
  c_decl := [(Aircraft_Furnishings_MASS, Aircraft_Furnishings_MASS_SCALER, 0);
             (Aircraft_Furnishings_MASS, Aircraft_Fuselage_PASSENGER_COMPARTMENT_LENGTH, 0);
             (Aircraft_Furnishings_MASS, Aircraft_Fuselage_MAX_WIDTH, 0);
             (Aircraft_Furnishings_MASS, Aircraft_Fuselage_MAX_HEIGHT, 0)];
  c_run := TransportFurnishingsGroupMass_compute op; c_jac := TransportFurnishingsGroupMass_partials op |}.

(** BWBFurnishingsGroupMass.compute, /repo/aviary/subsystems/mass/flops_based/furnishings.py L112-141 *)
Definition BWBFurnishingsGroupMass_compute (op : options) (e : env) : list (string * R) :=
  let flight_crew_count := on op Aircraft_CrewPayload_NUM_FLIGHT_CREW in  (* L113 *)
  let first_class_count := on op Aircraft_CrewPayload_Design_NUM_FIRST_CLASS in  (* L114 *)
  let business_class_count := on op Aircraft_CrewPayload_Design_NUM_BUSINESS_CLASS in  (* L115 *)
  let economy_class_count := on op Aircraft_CrewPayload_Design_NUM_ECONOMY_CLASS in  (* L116 *)
  let scaler := e Aircraft_Furnishings_MASS_SCALER in  (* L118 *)
  let fuse_max_width := e Aircraft_Fuselage_MAX_WIDTH in  (* L119 *)
  let fuse_max_height := e Aircraft_Fuselage_MAX_HEIGHT in  (* L120 *)
  let weight := 127 * flight_crew_count + 112 * first_class_count + 78 * business_class_count + 44 *
      economy_class_count in  (* L122 *)
  let weight :=  (* L130 *)
    if negb (ob op Aircraft_Fuselage_MILITARY_CARGO_FLOOR) then
      let acabin := e Aircraft_Fuselage_CABIN_AREA in  (* L131 *)
      let nbay := e Aircraft_BWB_NUM_BAYS in  (* L132 *)
      let cos_ := cos (PI / 180 * e Aircraft_BWB_PASSENGER_LEADING_EDGE_SWEEP) in  (* L134 *)
      let weight := weight + 26 / 10 * (acabin / fuse_max_width * (fuse_max_width + fuse_max_height * nbay) +
          fuse_max_width * (1 + 1 / cos_) * fuse_max_height) in  (* L136 *)
      weight
    else
      weight in
  let o_Furnishings_MASS := weight * scaler / GRAV_ENGLISH_LBM in  (* L141 *)
  [(Aircraft_Furnishings_MASS, o_Furnishings_MASS)].

(** BWBFurnishingsGroupMass.compute_partials, /repo/aviary/subsystems/mass/flops_based/furnishings.py L143-212 *)
Definition BWBFurnishingsGroupMass_partials (op : options) (e : env) : list (string * string * R) :=
  let flight_crew_count := on op Aircraft_CrewPayload_NUM_FLIGHT_CREW in  (* L144 *)
  let first_class_count := on op Aircraft_CrewPayload_Design_NUM_FIRST_CLASS in  (* L145 *)
  let business_class_count := on op Aircraft_CrewPayload_Design_NUM_BUSINESS_CLASS in  (* L146 *)
  let economy_class_count := on op Aircraft_CrewPayload_Design_NUM_ECONOMY_CLASS in  (* L147 *)
  let scaler := e Aircraft_Furnishings_MASS_SCALER in  (* L149 *)
  let d_Furnishings_MASS__Furnishings_MASS_SCALER := (127 * flight_crew_count + 112 * first_class_count + 78 *
      business_class_count + 44 * economy_class_count) / GRAV_ENGLISH_LBM in  (* L151 *)
  let '(d_Furnishings_MASS__Fuselage_CABIN_AREA, d_Furnishings_MASS__Fuselage_MAX_WIDTH,
      d_Furnishings_MASS__Fuselage_MAX_HEIGHT, d_Furnishings_MASS__BWB_PASSENGER_LEADING_EDGE_SWEEP,
      d_Furnishings_MASS__Furnishings_MASS_SCALER, d_Furnishings_MASS__BWB_NUM_BAYS) :=  (* L158 *)
    if ob op Aircraft_Fuselage_MILITARY_CARGO_FLOOR then
      let d_Furnishings_MASS__Fuselage_CABIN_AREA := 0 in  (* L159 *)
      let d_Furnishings_MASS__Fuselage_MAX_WIDTH := 0 in  (* L161 *)
      let d_Furnishings_MASS__Fuselage_MAX_HEIGHT := 0 in  (* L163 *)
      let d_Furnishings_MASS__BWB_PASSENGER_LEADING_EDGE_SWEEP := 0 in  (* L165 *)
      (d_Furnishings_MASS__Fuselage_CABIN_AREA, d_Furnishings_MASS__Fuselage_MAX_WIDTH,
          d_Furnishings_MASS__Fuselage_MAX_HEIGHT, d_Furnishings_MASS__BWB_PASSENGER_LEADING_EDGE_SWEEP,
          d_Furnishings_MASS__Furnishings_MASS_SCALER, 0)
    else
      let d2r := e Aircraft_BWB_PASSENGER_LEADING_EDGE_SWEEP * PI / 180 in  (* L168 *)
      let cos_ := cos d2r in  (* L169 *)
      let tan_ := tan d2r in  (* L170 *)
      let acabin := e Aircraft_Fuselage_CABIN_AREA in  (* L172 *)
      let nbay := e Aircraft_BWB_NUM_BAYS in  (* L173 *)
      let fuse_max_width := e Aircraft_Fuselage_MAX_WIDTH in  (* L174 *)
      let fuse_max_height := e Aircraft_Fuselage_MAX_HEIGHT in  (* L175 *)
      let cabin_area := e Aircraft_Fuselage_CABIN_AREA in  (* L176 *)
      let d_Furnishings_MASS__Furnishings_MASS_SCALER := d_Furnishings_MASS__Furnishings_MASS_SCALER + 26 / 10 *
          (acabin / fuse_max_width * (fuse_max_width + fuse_max_height * nbay) + fuse_max_width * (1 + 1 / cos_) *
          fuse_max_height) / GRAV_ENGLISH_LBM in  (* L178 *)
      let d_Furnishings_MASS__Fuselage_CABIN_AREA := 26 / 10 * scaler * (fuse_max_width + fuse_max_height * nbay) /
          fuse_max_width / GRAV_ENGLISH_LBM in  (* L187 *)
      let d_Furnishings_MASS__Fuselage_MAX_WIDTH := 26 / 10 * scaler * (- cabin_area * fuse_max_height * nbay /
          (fuse_max_width * fuse_max_width) + (1 + 1 / cos_) * fuse_max_height) / GRAV_ENGLISH_LBM in  (* L191 *)
      let d_Furnishings_MASS__Fuselage_MAX_HEIGHT := 26 / 10 * scaler * (cabin_area / fuse_max_width * nbay +
          fuse_max_width * (1 + 1 / cos_)) / GRAV_ENGLISH_LBM in  (* L200 *)
      let d_Furnishings_MASS__BWB_PASSENGER_LEADING_EDGE_SWEEP := 26 / 10 * scaler * fuse_max_width * fuse_max_height
          * tan_ / cos_ / (180 / PI) / GRAV_ENGLISH_LBM in  (* L206 *)
      let d_Furnishings_MASS__BWB_NUM_BAYS := 26 / 10 * scaler * (acabin / fuse_max_width) * fuse_max_height /
          GRAV_ENGLISH_LBM in  (* L210 *)
      (d_Furnishings_MASS__Fuselage_CABIN_AREA, d_Furnishings_MASS__Fuselage_MAX_WIDTH,
          d_Furnishings_MASS__Fuselage_MAX_HEIGHT, d_Furnishings_MASS__BWB_PASSENGER_LEADING_EDGE_SWEEP,
          d_Furnishings_MASS__Furnishings_MASS_SCALER, d_Furnishings_MASS__BWB_NUM_BAYS) in
  [(Aircraft_Furnishings_MASS, Aircraft_Furnishings_MASS_SCALER, d_Furnishings_MASS__Furnishings_MASS_SCALER);
   (Aircraft_Furnishings_MASS, Aircraft_Fuselage_CABIN_AREA, d_Furnishings_MASS__Fuselage_CABIN_AREA);
   (Aircraft_Furnishings_MASS, Aircraft_Fuselage_MAX_WIDTH, d_Furnishings_MASS__Fuselage_MAX_WIDTH);
   (Aircraft_Furnishings_MASS, Aircraft_Fuselage_MAX_HEIGHT, d_Furnishings_MASS__Fuselage_MAX_HEIGHT);
   (Aircraft_Furnishings_MASS, Aircraft_BWB_PASSENGER_LEADING_EDGE_SWEEP,
       d_Furnishings_MASS__BWB_PASSENGER_LEADING_EDGE_SWEEP);
   (Aircraft_Furnishings_MASS, Aircraft_BWB_NUM_BAYS, d_Furnishings_MASS__BWB_NUM_BAYS)].

(** Inputs, outputs and declared partials: /repo/aviary/subsystems/mass/flops_based/furnishings.py L97-110 *)
Definition BWBFurnishingsGroupMass (op : options) : comp := {|
  c_ins := [Aircraft_Furnishings_MASS_SCALER;
            Aircraft_Fuselage_CABIN_AREA;
            Aircraft_Fuselage_MAX_WIDTH;
            Aircraft_Fuselage_MAX_HEIGHT;
            Aircraft_BWB_PASSENGER_LEADING_EDGE_SWEEP;
            Aircraft_BWB_NUM_BAYS];
  c_outs := [Aircraft_Furnishings_MASS];
  c_decl := [(Aircraft_Furnishings_MASS, Aircraft_Furnishings_MASS_SCALER, 0);
             (Aircraft_Furnishings_MASS, Aircraft_Fuselage_CABIN_AREA, 0);
             (Aircraft_Furnishings_MASS, Aircraft_Fuselage_MAX_WIDTH, 0);
             (Aircraft_Furnishings_MASS, Aircraft_Fuselage_MAX_HEIGHT, 0);
             (Aircraft_Furnishings_MASS, Aircraft_BWB_PASSENGER_LEADING_EDGE_SWEEP, 0);
             (Aircraft_Furnishings_MASS, Aircraft_BWB_NUM_BAYS, 0)];
  c_run := BWBFurnishingsGroupMass_compute op; c_jac := BWBFurnishingsGroupMass_partials op |}.

(** AltFurnishingsGroupMassBase.compute, /repo/aviary/subsystems/mass/flops_based/furnishings.py L233-237 *)
Definition AltFurnishingsGroupMassBase_compute (op : options) (e : env) : list (string * R) :=
  let pax_count := on op Aircraft_CrewPayload_Design_NUM_PASSENGERS in  (* L234 *)
  let scaler := e Aircraft_Furnishings_MASS_SCALER in  (* L235 *)
  let o_Furnishings_MASS_BASE := (8215 / 100 * pax_count + 3600) * scaler in  (* L237 *)
  [(Aircraft_Furnishings_MASS_BASE, o_Furnishings_MASS_BASE)].

(** AltFurnishingsGroupMassBase.compute_partials, /repo/aviary/subsystems/mass/flops_based/furnishings.py L239-244 *)
Definition AltFurnishingsGroupMassBase_partials (op : options) (e : env) : list (string * string * R) :=
  let pax_count := on op Aircraft_CrewPayload_Design_NUM_PASSENGERS in  (* L240 *)
  let d_Furnishings_MASS_BASE__Furnishings_MASS_SCALER := 8215 / 100 * pax_count + 3600 in  (* L242 *)
  [(Aircraft_Furnishings_MASS_BASE, Aircraft_Furnishings_MASS_SCALER,
      d_Furnishings_MASS_BASE__Furnishings_MASS_SCALER)].

(** Inputs, outputs and declared partials: /repo/aviary/subsystems/mass/flops_based/furnishings.py L225-231 *)
Definition AltFurnishingsGroupMassBase (op : options) : comp := {|
  c_ins := [Aircraft_Furnishings_MASS_SCALER];
  c_outs := [Aircraft_Furnishings_MASS_BASE];
  c_decl := [(Aircraft_Furnishings_MASS_BASE, Aircraft_Furnishings_MASS_SCALER, 0)];
  c_run := AltFurnishingsGroupMassBase_compute op; c_jac := AltFurnishingsGroupMassBase_partials op |}.

(** AltFurnishingsGroupMass.compute, /repo/aviary/subsystems/mass/flops_based/furnishings.py L277-285 *)
Definition AltFurnishingsGroupMass_compute (op : options) (e : env) : list (string * R) :=
  let furn_mass_base := e Aircraft_Furnishings_MASS_BASE in  (* L278 *)
  let struct_mass := e Aircraft_Design_STRUCTURE_MASS in  (* L279 *)
  let prop_mass := e Aircraft_Propulsion_MASS in  (* L280 *)
  let syseq_mass_base := e Aircraft_Design_SYSTEMS_AND_EQUIPMENT_MASS_BASE in  (* L281 *)
  let o_Furnishings_MASS := furn_mass_base + 1 / 100 * (struct_mass + prop_mass + syseq_mass_base) in  (* L283 *)
  [(Aircraft_Furnishings_MASS, o_Furnishings_MASS)].

Definition AltFurnishingsGroupMass_partials (op : options) (e : env) : list (string * string * R) := [].

(** Inputs, outputs and declared partials: /repo/aviary/subsystems/mass/flops_based/furnishings.py L254-275 *)
Definition AltFurnishingsGroupMass (op : options) : comp := {|
  c_ins := [Aircraft_Furnishings_MASS_BASE;
            Aircraft_Design_STRUCTURE_MASS;
            Aircraft_Propulsion_MASS;
            Aircraft_Design_SYSTEMS_AND_EQUIPMENT_MASS_BASE];
  c_outs := [Aircraft_Furnishings_MASS];
  c_decl := [(Aircraft_Furnishings_MASS, Aircraft_Design_STRUCTURE_MASS, 1 / 100);
             (Aircraft_Furnishings_MASS, Aircraft_Propulsion_MASS, 1 / 100);
             (Aircraft_Furnishings_MASS, Aircraft_Design_SYSTEMS_AND_EQUIPMENT_MASS_BASE, 1 / 100);
             (Aircraft_Furnishings_MASS, Aircraft_Furnishings_MASS_BASE, 1)];
  c_run := AltFurnishingsGroupMass_compute op; c_jac := AltFurnishingsGroupMass_partials op |}.

(** SurfaceControlMass.compute, /repo/aviary/subsystems/mass/flops_based/surface_controls.py L32-47 *)
Definition SurfaceControlMass_compute (op : options) (e : env) : list (string * R) :=
  let scaler := e Aircraft_Wing_SURFACE_CONTROL_MASS_SCALER in  (* L33 *)
  let max_mach := on op Mission_Constraints_MAX_MACH in  (* L34 *)
  let gross_weight := e Aircraft_Design_GROSS_MASS * GRAV_ENGLISH_LBM in  (* L35 *)
  let flap_ratio := e Aircraft_Wing_CONTROL_SURFACE_AREA_RATIO in  (* L36 *)
  let wing_area := e Aircraft_Wing_AREA in  (* L37 *)
  let surface_flap_area := flap_ratio * wing_area in  (* L39 *)
  let surface_ctrls_wt := 11 / 10 * max_mach ** (52 / 100) * surface_flap_area ** (6 / 10) * gross_weight ** (32 /
      100) * scaler in  (* L41 *)
  let o_Wing_CONTROL_SURFACE_AREA := surface_flap_area in  (* L45 *)
  let o_Wing_SURFACE_CONTROL_MASS := surface_ctrls_wt / GRAV_ENGLISH_LBM in  (* L47 *)
  [(Aircraft_Wing_CONTROL_SURFACE_AREA, o_Wing_CONTROL_SURFACE_AREA);
   (Aircraft_Wing_SURFACE_CONTROL_MASS, o_Wing_SURFACE_CONTROL_MASS)].

(** SurfaceControlMass.compute_partials, /repo/aviary/subsystems/mass/flops_based/surface_controls.py L49-93 *)
Definition SurfaceControlMass_partials (op : options) (e : env) : list (string * string * R) :=
  let scaler := e Aircraft_Wing_SURFACE_CONTROL_MASS_SCALER in  (* L50 *)
  let max_mach := on op Mission_Constraints_MAX_MACH in  (* L51 *)
  let gross_weight := e Aircraft_Design_GROSS_MASS * GRAV_ENGLISH_LBM in  (* L52 *)
  let flap_ratio := e Aircraft_Wing_CONTROL_SURFACE_AREA_RATIO in  (* L53 *)
  let wing_area := e Aircraft_Wing_AREA in  (* L54 *)
  let surface_flap_area := flap_ratio * wing_area in  (* L56 *)
  let max_mach_exp := max_mach ** (52 / 100) in  (* L58 *)
  let surface_area_exp := surface_flap_area ** (6 / 10) in  (* L59 *)
  let gross_weight_exp := gross_weight ** (32 / 100) in  (* L60 *)
  let d_Wing_SURFACE_CONTROL_MASS__Wing_SURFACE_CONTROL_MASS_SCALER := 11 / 10 * max_mach_exp * surface_area_exp *
      gross_weight_exp / GRAV_ENGLISH_LBM in  (* L62 *)
  let d_Wing_SURFACE_CONTROL_MASS__Design_GROSS_MASS := 11 / 10 * max_mach_exp * surface_area_exp * (32 / 100) *
      gross_weight ** (32 / 100 - 1) * scaler in  (* L66 *)
  let d_Wing_SURFACE_CONTROL_MASS__Wing_CONTROL_SURFACE_AREA_RATIO := 11 / 10 * max_mach_exp * (6 / 10) *
      surface_flap_area ** (6 / 10 - 1) * gross_weight_exp * wing_area * scaler / GRAV_ENGLISH_LBM in  (* L70 *)
  let d_Wing_SURFACE_CONTROL_MASS__Wing_AREA := 11 / 10 * max_mach_exp * (6 / 10) * surface_flap_area ** (6 / 10 - 1)
      * gross_weight_exp * flap_ratio * scaler / GRAV_ENGLISH_LBM in  (* L81 *)
  let d_Wing_CONTROL_SURFACE_AREA__Wing_CONTROL_SURFACE_AREA_RATIO := wing_area in  (* L92 *)
  let d_Wing_CONTROL_SURFACE_AREA__Wing_AREA := flap_ratio in  (* L93 *)
  [(Aircraft_Wing_SURFACE_CONTROL_MASS, Aircraft_Wing_SURFACE_CONTROL_MASS_SCALER,
      d_Wing_SURFACE_CONTROL_MASS__Wing_SURFACE_CONTROL_MASS_SCALER);
   (Aircraft_Wing_SURFACE_CONTROL_MASS, Aircraft_Design_GROSS_MASS, d_Wing_SURFACE_CONTROL_MASS__Design_GROSS_MASS);
   (Aircraft_Wing_SURFACE_CONTROL_MASS, Aircraft_Wing_CONTROL_SURFACE_AREA_RATIO,
       d_Wing_SURFACE_CONTROL_MASS__Wing_CONTROL_SURFACE_AREA_RATIO);
   (Aircraft_Wing_SURFACE_CONTROL_MASS, Aircraft_Wing_AREA, d_Wing_SURFACE_CONTROL_MASS__Wing_AREA);
   (Aircraft_Wing_CONTROL_SURFACE_AREA, Aircraft_Wing_CONTROL_SURFACE_AREA_RATIO,
       d_Wing_CONTROL_SURFACE_AREA__Wing_CONTROL_SURFACE_AREA_RATIO);
   (Aircraft_Wing_CONTROL_SURFACE_AREA, Aircraft_Wing_AREA, d_Wing_CONTROL_SURFACE_AREA__Wing_AREA)].

(** Inputs, outputs and declared partials: /repo/aviary/subsystems/mass/flops_based/surface_controls.py L17-30 *)
Definition SurfaceControlMass (op : options) : comp := {|
  c_ins := [Aircraft_Wing_SURFACE_CONTROL_MASS_SCALER;
            Aircraft_Design_GROSS_MASS;
            Aircraft_Wing_CONTROL_SURFACE_AREA_RATIO;
            Aircraft_Wing_AREA];
  c_outs := [Aircraft_Wing_SURFACE_CONTROL_MASS;
             Aircraft_Wing_CONTROL_SURFACE_AREA];
  c_decl := [(Aircraft_Wing_SURFACE_CONTROL_MASS, Aircraft_Wing_SURFACE_CONTROL_MASS_SCALER, 0);
             (Aircraft_Wing_SURFACE_CONTROL_MASS, Aircraft_Design_GROSS_MASS, 0);
             (Aircraft_Wing_SURFACE_CONTROL_MASS, Aircraft_Wing_CONTROL_SURFACE_AREA_RATIO, 0);
             (Aircraft_Wing_SURFACE_CONTROL_MASS, Aircraft_Wing_AREA, 0);
             (Aircraft_Wing_CONTROL_SURFACE_AREA, Aircraft_Wing_CONTROL_SURFACE_AREA_RATIO, 0);
             (Aircraft_Wing_CONTROL_SURFACE_AREA, Aircraft_Wing_AREA, 0)];
  c_run := SurfaceControlMass_compute op; c_jac := SurfaceControlMass_partials op |}.

(** AltSurfaceControlMass.compute, /repo/aviary/subsystems/mass/flops_based/surface_controls.py L116-130 *)
Definition AltSurfaceControlMass_compute (op : options) (e : env) : list (string * R) :=
  let scaler := e Aircraft_Wing_SURFACE_CONTROL_MASS_SCALER in  (* L117 *)
  let wing_area := e Aircraft_Wing_AREA in  (* L118 *)
  let flap_ratio := e Aircraft_Wing_CONTROL_SURFACE_AREA_RATIO in  (* L119 *)
  let htail_area := e Aircraft_HorizontalTail_WETTED_AREA in  (* L120 *)
  let htail_TCR := e Aircraft_HorizontalTail_THICKNESS_TO_CHORD in  (* L121 *)
  let vtail_area := e Aircraft_VerticalTail_AREA in  (* L122 *)
  let surface_ctrls_wt := (480 + 99 / 100 * wing_area + 25 / 10 * htail_area / (2 + 387 / 1000 * htail_TCR) + 16 / 10
      * vtail_area) * scaler in  (* L124 *)
  let o_Wing_SURFACE_CONTROL_MASS := surface_ctrls_wt / GRAV_ENGLISH_LBM in  (* L128 *)
  let o_Wing_CONTROL_SURFACE_AREA := flap_ratio * wing_area in  (* L130 *)
  [(Aircraft_Wing_SURFACE_CONTROL_MASS, o_Wing_SURFACE_CONTROL_MASS);
   (Aircraft_Wing_CONTROL_SURFACE_AREA, o_Wing_CONTROL_SURFACE_AREA)].

(** AltSurfaceControlMass.compute_partials, /repo/aviary/subsystems/mass/flops_based/surface_controls.py L132-159 *)
Definition AltSurfaceControlMass_partials (op : options) (e : env) : list (string * string * R) :=
  let scaler := e Aircraft_Wing_SURFACE_CONTROL_MASS_SCALER in  (* L133 *)
  let wing_area := e Aircraft_Wing_AREA in  (* L134 *)
  let flap_ratio := e Aircraft_Wing_CONTROL_SURFACE_AREA_RATIO in  (* L135 *)
  let htail_area := e Aircraft_HorizontalTail_WETTED_AREA in  (* L136 *)
  let htail_TCR := e Aircraft_HorizontalTail_THICKNESS_TO_CHORD in  (* L137 *)
  let vtail_area := e Aircraft_VerticalTail_AREA in  (* L138 *)
  let d_Wing_SURFACE_CONTROL_MASS__Wing_SURFACE_CONTROL_MASS_SCALER := (480 + 99 / 100 * wing_area + 25 / 10 *
      htail_area / (2 + 387 / 1000 * htail_TCR) + 16 / 10 * vtail_area) / GRAV_ENGLISH_LBM in  (* L140 *)
  let d_Wing_SURFACE_CONTROL_MASS__Wing_AREA := 99 / 100 * scaler / GRAV_ENGLISH_LBM in  (* L144 *)
  let d_Wing_SURFACE_CONTROL_MASS__HorizontalTail_WETTED_AREA := 25 / 10 / (2 + 387 / 1000 * htail_TCR) * scaler /
      GRAV_ENGLISH_LBM in  (* L145 *)
  let d_Wing_SURFACE_CONTROL_MASS__HorizontalTail_THICKNESS_TO_CHORD := - 25 / 10 * htail_area / (2 + 387 / 1000 *
      htail_TCR) ^ 2 * (387 / 1000) * scaler / GRAV_ENGLISH_LBM in  (* L149 *)
  let d_Wing_SURFACE_CONTROL_MASS__VerticalTail_AREA := 16 / 10 * scaler / GRAV_ENGLISH_LBM in  (* L153 *)
  let d_Wing_CONTROL_SURFACE_AREA__Wing_CONTROL_SURFACE_AREA_RATIO := wing_area in  (* L157 *)
  let d_Wing_CONTROL_SURFACE_AREA__Wing_AREA := flap_ratio in  (* L159 *)
  [(Aircraft_Wing_SURFACE_CONTROL_MASS, Aircraft_Wing_SURFACE_CONTROL_MASS_SCALER,
      d_Wing_SURFACE_CONTROL_MASS__Wing_SURFACE_CONTROL_MASS_SCALER);
   (Aircraft_Wing_SURFACE_CONTROL_MASS, Aircraft_Wing_AREA, d_Wing_SURFACE_CONTROL_MASS__Wing_AREA);
   (Aircraft_Wing_SURFACE_CONTROL_MASS, Aircraft_HorizontalTail_WETTED_AREA,
       d_Wing_SURFACE_CONTROL_MASS__HorizontalTail_WETTED_AREA);
   (Aircraft_Wing_SURFACE_CONTROL_MASS, Aircraft_HorizontalTail_THICKNESS_TO_CHORD,
       d_Wing_SURFACE_CONTROL_MASS__HorizontalTail_THICKNESS_TO_CHORD);
   (Aircraft_Wing_SURFACE_CONTROL_MASS, Aircraft_VerticalTail_AREA, d_Wing_SURFACE_CONTROL_MASS__VerticalTail_AREA);
   (Aircraft_Wing_CONTROL_SURFACE_AREA, Aircraft_Wing_CONTROL_SURFACE_AREA_RATIO,
       d_Wing_CONTROL_SURFACE_AREA__Wing_CONTROL_SURFACE_AREA_RATIO);
   (Aircraft_Wing_CONTROL_SURFACE_AREA, Aircraft_Wing_AREA, d_Wing_CONTROL_SURFACE_AREA__Wing_AREA)].

(** Inputs, outputs and declared partials: /repo/aviary/subsystems/mass/flops_based/surface_controls.py L103-114 *)
Definition AltSurfaceControlMass (op : options) : comp := {|
  c_ins := [Aircraft_Wing_SURFACE_CONTROL_MASS_SCALER;
            Aircraft_Wing_AREA;
            Aircraft_Wing_CONTROL_SURFACE_AREA_RATIO;
            Aircraft_HorizontalTail_WETTED_AREA;
            Aircraft_HorizontalTail_THICKNESS_TO_CHORD;
            Aircraft_VerticalTail_AREA];
  c_outs := [Aircraft_Wing_CONTROL_SURFACE_AREA;
             Aircraft_Wing_SURFACE_CONTROL_MASS];
  c_decl := [(Aircraft_Wing_CONTROL_SURFACE_AREA, Aircraft_Wing_SURFACE_CONTROL_MASS_SCALER, 0);
             (Aircraft_Wing_CONTROL_SURFACE_AREA, Aircraft_Wing_AREA, 0);
             (Aircraft_Wing_CONTROL_SURFACE_AREA, Aircraft_Wing_CONTROL_SURFACE_AREA_RATIO, 0);
             (Aircraft_Wing_CONTROL_SURFACE_AREA, Aircraft_HorizontalTail_WETTED_AREA, 0);
             (Aircraft_Wing_CONTROL_SURFACE_AREA, Aircraft_HorizontalTail_THICKNESS_TO_CHORD, 0);
             (Aircraft_Wing_CONTROL_SURFACE_AREA, Aircraft_VerticalTail_AREA, 0);
             (Aircraft_Wing_SURFACE_CONTROL_MASS, Aircraft_Wing_SURFACE_CONTROL_MASS_SCALER, 0);
             (Aircraft_Wing_SURFACE_CONTROL_MASS, Aircraft_Wing_AREA, 0);
             (Aircraft_Wing_SURFACE_CONTROL_MASS, Aircraft_Wing_CONTROL_SURFACE_AREA_RATIO, 0);
             (Aircraft_Wing_SURFACE_CONTROL_MASS, Aircraft_HorizontalTail_WETTED_AREA, 0);
             (Aircraft_Wing_SURFACE_CONTROL_MASS, Aircraft_HorizontalTail_THICKNESS_TO_CHORD, 0);
             (Aircraft_Wing_SURFACE_CONTROL_MASS, Aircraft_VerticalTail_AREA, 0)];
  c_run := AltSurfaceControlMass_compute op; c_jac := AltSurfaceControlMass_partials op |}.
