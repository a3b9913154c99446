(** FLOPS based masses of the airframe, /repo/aviary/subsystems/mass/flops_based.

    Generated by tools/py2coq.py from the source text; see the header of that file for the rules.  Decimal
    literals are exact and numbers are real numbers. *)
From Coq Require Import Reals.
From Verif Require Import Base Comp MathModel MassDistModel.
Open Scope list_scope.
Open Scope string_scope.
Local Open Scope R_scope.

(** ** Variable names, /repo/aviary/variable_info/variables.py *)
Definition Aircraft_Canard_AREA := "aircraft:canard:area".
Definition Aircraft_Canard_MASS := "aircraft:canard:mass".
Definition Aircraft_Canard_MASS_SCALER := "aircraft:canard:mass_scaler".
Definition Aircraft_Canard_TAPER_RATIO := "aircraft:canard:taper_ratio".
Definition Aircraft_Design_CRUISE_MACH := "aircraft:design:cruise_mach".
Definition Aircraft_Design_GROSS_MASS := "aircraft:design:gross_mass".
Definition Aircraft_Design_LANDING_TO_TAKEOFF_MASS_RATIO := "aircraft:design:landing_to_takeoff_mass_ratio".
Definition Aircraft_Design_RANGE := "aircraft:design:range".
Definition Aircraft_Design_TOUCHDOWN_MASS_MAX := "aircraft:design:touchdown_mass_max".
Definition Aircraft_Fins_AREA := "aircraft:fins:area".
Definition Aircraft_Fins_MASS := "aircraft:fins:mass".
Definition Aircraft_Fins_MASS_SCALER := "aircraft:fins:mass_scaler".
Definition Aircraft_Fins_NUM_FINS := "aircraft:fins:num_fins".
Definition Aircraft_Fins_TAPER_RATIO := "aircraft:fins:taper_ratio".
Definition Aircraft_Fuselage_CABIN_AREA := "aircraft:fuselage:cabin_area".
Definition Aircraft_Fuselage_LENGTH := "aircraft:fuselage:length".
Definition Aircraft_Fuselage_MASS := "aircraft:fuselage:mass".
Definition Aircraft_Fuselage_MASS_SCALER := "aircraft:fuselage:mass_scaler".
Definition Aircraft_Fuselage_MAX_HEIGHT := "aircraft:fuselage:max_height".
Definition Aircraft_Fuselage_MAX_WIDTH := "aircraft:fuselage:max_width".
Definition Aircraft_Fuselage_MILITARY_CARGO_FLOOR := "aircraft:fuselage:military_cargo_floor".
Definition Aircraft_Fuselage_NUM_FUSELAGES := "aircraft:fuselage:num_fuselages".
Definition Aircraft_Fuselage_REF_DIAMETER := "aircraft:fuselage:ref_diameter".
Definition Aircraft_Fuselage_WETTED_AREA := "aircraft:fuselage:wetted_area".
Definition Aircraft_HorizontalTail_AREA := "aircraft:horizontal_tail:area".
Definition Aircraft_HorizontalTail_MASS := "aircraft:horizontal_tail:mass".
Definition Aircraft_HorizontalTail_MASS_SCALER := "aircraft:horizontal_tail:mass_scaler".
Definition Aircraft_HorizontalTail_NUM_TAILS := "aircraft:horizontal_tail:num_tails".
Definition Aircraft_HorizontalTail_TAPER_RATIO := "aircraft:horizontal_tail:taper_ratio".
Definition Aircraft_LandingGear_MAIN_GEAR_MASS := "aircraft:landing_gear:main_gear_mass".
Definition Aircraft_LandingGear_MAIN_GEAR_MASS_SCALER := "aircraft:landing_gear:main_gear_mass_scaler".
Definition Aircraft_LandingGear_MAIN_GEAR_OLEO_LENGTH := "aircraft:landing_gear:main_gear_oleo_length".
Definition Aircraft_LandingGear_NOSE_GEAR_MASS := "aircraft:landing_gear:nose_gear_mass".
Definition Aircraft_LandingGear_NOSE_GEAR_MASS_SCALER := "aircraft:landing_gear:nose_gear_mass_scaler".
Definition Aircraft_LandingGear_NOSE_GEAR_OLEO_LENGTH := "aircraft:landing_gear:nose_gear_oleo_length".
Definition Aircraft_LandingGear_TOTAL_MASS := "aircraft:landing_gear:total_mass".
Definition Aircraft_Propulsion_TOTAL_NUM_FUSELAGE_ENGINES := "aircraft:propulsion:total_num_fuselage_engines".
Definition Aircraft_VerticalTail_AREA := "aircraft:vertical_tail:area".
Definition Aircraft_VerticalTail_MASS := "aircraft:vertical_tail:mass".
Definition Aircraft_VerticalTail_MASS_SCALER := "aircraft:vertical_tail:mass_scaler".
Definition Aircraft_VerticalTail_NUM_TAILS := "aircraft:vertical_tail:num_tails".
Definition Aircraft_VerticalTail_TAPER_RATIO := "aircraft:vertical_tail:taper_ratio".
Definition Aircraft_Wing_AEROELASTIC_TAILORING_FACTOR := "aircraft:wing:aeroelastic_tailoring_factor".
Definition Aircraft_Wing_AREA := "aircraft:wing:area".
Definition Aircraft_Wing_BENDING_MATERIAL_FACTOR := "aircraft:wing:bending_material_factor".
Definition Aircraft_Wing_BENDING_MATERIAL_MASS := "aircraft:wing:bending_material_mass".
Definition Aircraft_Wing_BENDING_MATERIAL_MASS_SCALER := "aircraft:wing:bending_material_mass_scaler".
Definition Aircraft_Wing_BWB_AFTBODY_MASS := "aircraft:wing:bwb_aftbody_mass".
Definition Aircraft_Wing_COMPOSITE_FRACTION := "aircraft:wing:composite_fraction".
Definition Aircraft_Wing_CONTROL_SURFACE_AREA := "aircraft:wing:control_surface_area".
Definition Aircraft_Wing_ENG_POD_INERTIA_FACTOR := "aircraft:wing:eng_pod_inertia_factor".
Definition Aircraft_Wing_LOAD_FRACTION := "aircraft:wing:load_fraction".
Definition Aircraft_Wing_MASS := "aircraft:wing:mass".
Definition Aircraft_Wing_MASS_SCALER := "aircraft:wing:mass_scaler".
Definition Aircraft_Wing_MISC_MASS := "aircraft:wing:misc_mass".
Definition Aircraft_Wing_MISC_MASS_SCALER := "aircraft:wing:misc_mass_scaler".
Definition Aircraft_Wing_SHEAR_CONTROL_MASS := "aircraft:wing:shear_control_mass".
Definition Aircraft_Wing_SHEAR_CONTROL_MASS_SCALER := "aircraft:wing:shear_control_mass_scaler".
Definition Aircraft_Wing_SPAN := "aircraft:wing:span".
Definition Aircraft_Wing_SWEEP := "aircraft:wing:sweep".
Definition Aircraft_Wing_ULTIMATE_LOAD_FACTOR := "aircraft:wing:ultimate_load_factor".
Definition Aircraft_Wing_VAR_SWEEP_MASS_PENALTY := "aircraft:wing:var_sweep_mass_penalty".
Definition Settings_VERBOSITY := "settings:verbosity".
Definition v_calculated_wing_area := "calculated_wing_area".


(** CanardMass.compute, /repo/aviary/subsystems/mass/flops_based/canard.py L25-33 *)
Definition CanardMass_compute (op : options) (e : env) : list (string * R) :=
  let togw := e Aircraft_Design_GROSS_MASS * GRAV_ENGLISH_LBM in  (* L26 *)
  let area := e Aircraft_Canard_AREA in  (* L27 *)
  let taper_ratio := e Aircraft_Canard_TAPER_RATIO in  (* L28 *)
  let canard_weight := 53 / 100 * area * togw ** (2 / 10) * (taper_ratio + 5 / 10) in  (* L30 *)
  let o_Canard_MASS := canard_weight * e Aircraft_Canard_MASS_SCALER / GRAV_ENGLISH_LBM in  (* L31 *)
  [(Aircraft_Canard_MASS, o_Canard_MASS)].

(** CanardMass.compute_partials, /repo/aviary/subsystems/mass/flops_based/canard.py L35-57 *)
Definition CanardMass_partials (op : options) (e : env) : list (string * string * R) :=
  let area := e Aircraft_Canard_AREA in  (* L36 *)
  let taper_ratio := e Aircraft_Canard_TAPER_RATIO in  (* L37 *)
  let scaler := e Aircraft_Canard_MASS_SCALER in  (* L38 *)
  let gross_weight := e Aircraft_Design_GROSS_MASS * GRAV_ENGLISH_LBM in  (* L39 *)
  let gross_weight_exp := gross_weight ** (2 / 10) in  (* L41 *)
  let d_Canard_MASS__Canard_AREA := 53 / 100 * scaler * (taper_ratio + 5 / 10) * gross_weight_exp / GRAV_ENGLISH_LBM
      in  (* L43 *)
  let d_Canard_MASS__Canard_TAPER_RATIO := 53 / 100 * area * scaler * gross_weight_exp / GRAV_ENGLISH_LBM in  (* L47 *)
  let d_Canard_MASS__Canard_MASS_SCALER := 53 / 100 * area * (taper_ratio + 5 / 10) * gross_weight_exp /
      GRAV_ENGLISH_LBM in  (* L51 *)
  let d_Canard_MASS__Design_GROSS_MASS := 106 / 1000 * area * scaler * (taper_ratio + 5 / 10) / gross_weight ** (8 /
      10) in  (* L55 *)
  [(Aircraft_Canard_MASS, Aircraft_Canard_AREA, d_Canard_MASS__Canard_AREA);
   (Aircraft_Canard_MASS, Aircraft_Canard_TAPER_RATIO, d_Canard_MASS__Canard_TAPER_RATIO);
   (Aircraft_Canard_MASS, Aircraft_Canard_MASS_SCALER, d_Canard_MASS__Canard_MASS_SCALER);
   (Aircraft_Canard_MASS, Aircraft_Design_GROSS_MASS, d_Canard_MASS__Design_GROSS_MASS)].

(** Inputs, outputs and declared partials: /repo/aviary/subsystems/mass/flops_based/canard.py L14-23 *)
Definition CanardMass (op : options) : comp := {|
  c_ins := [Aircraft_Design_GROSS_MASS;
            Aircraft_Canard_AREA;
            Aircraft_Canard_TAPER_RATIO;
            Aircraft_Canard_MASS_SCALER];
  c_outs := [Aircraft_Canard_MASS];
  c_decl := [(Aircraft_Canard_MASS, Aircraft_Design_GROSS_MASS, 0);
             (Aircraft_Canard_MASS, Aircraft_Canard_AREA, 0);
             (Aircraft_Canard_MASS, Aircraft_Canard_TAPER_RATIO, 0);
             (Aircraft_Canard_MASS, Aircraft_Canard_MASS_SCALER, 0)];
  c_run := CanardMass_compute op; c_jac := CanardMass_partials op |}.

(** FinMass.compute, /repo/aviary/subsystems/mass/flops_based/fin.py L28-38 *)
Definition FinMass_compute (op : options) (e : env) : list (string * R) :=
  let num_fins := on op Aircraft_Fins_NUM_FINS in  (* L29 *)
  let o_Fins_MASS :=  (* L30 *)
    if ltb 0 num_fins then
      let togw := e Aircraft_Design_GROSS_MASS * GRAV_ENGLISH_LBM in  (* L31 *)
      let area := e Aircraft_Fins_AREA in  (* L32 *)
      let taper_ratio := e Aircraft_Fins_TAPER_RATIO in  (* L33 *)
      let fin_weight := 32 / 100 * togw ** (3 / 10) * area ** (85 / 100) * (taper_ratio + 5 / 10) * num_fins in  (* L35 *)
      let o_Fins_MASS := fin_weight * e Aircraft_Fins_MASS_SCALER / GRAV_ENGLISH_LBM in  (* L36 *)
      o_Fins_MASS
    else
      0 in
  [(Aircraft_Fins_MASS, o_Fins_MASS)].

(** FinMass.compute_partials, /repo/aviary/subsystems/mass/flops_based/fin.py L40-67 *)
Definition FinMass_partials (op : options) (e : env) : list (string * string * R) :=
  let num_fins := on op Aircraft_Fins_NUM_FINS in  (* L41 *)
  let '(d_Fins_MASS__Fins_AREA, d_Fins_MASS__Fins_TAPER_RATIO, d_Fins_MASS__Fins_MASS_SCALER,
      d_Fins_MASS__Design_GROSS_MASS) :=  (* L42 *)
    if ltb 0 num_fins then
      let area := e Aircraft_Fins_AREA in  (* L43 *)
      let taper_ratio := e Aircraft_Fins_TAPER_RATIO in  (* L44 *)
      let scaler := e Aircraft_Fins_MASS_SCALER in  (* L45 *)
      let gross_weight := e Aircraft_Design_GROSS_MASS * GRAV_ENGLISH_LBM in  (* L46 *)
      let area_exp := area ** (85 / 100) in  (* L48 *)
      let gross_weight_exp := gross_weight ** (3 / 10) in  (* L49 *)
      let d_Fins_MASS__Fins_AREA := 272 / 1000 * num_fins * scaler * (taper_ratio + 5 / 10) * gross_weight_exp / area
          ** (15 / 100) / GRAV_ENGLISH_LBM in  (* L51 *)
      let d_Fins_MASS__Fins_TAPER_RATIO := 32 / 100 * area_exp * num_fins * scaler * gross_weight_exp /
          GRAV_ENGLISH_LBM in  (* L54 *)
      let d_Fins_MASS__Fins_MASS_SCALER := 32 / 100 * area_exp * num_fins * (taper_ratio + 5 / 10) * gross_weight_exp
          / GRAV_ENGLISH_LBM in  (* L57 *)
      let d_Fins_MASS__Design_GROSS_MASS := 96 / 1000 * area_exp * num_fins * scaler * (taper_ratio + 5 / 10) /
          gross_weight ** (7 / 10) in  (* L65 *)
      (d_Fins_MASS__Fins_AREA, d_Fins_MASS__Fins_TAPER_RATIO, d_Fins_MASS__Fins_MASS_SCALER,
          d_Fins_MASS__Design_GROSS_MASS)
    else
      (0, 0, 0, 0) in
  [(Aircraft_Fins_MASS, Aircraft_Fins_AREA, d_Fins_MASS__Fins_AREA);
   (Aircraft_Fins_MASS, Aircraft_Fins_TAPER_RATIO, d_Fins_MASS__Fins_TAPER_RATIO);
   (Aircraft_Fins_MASS, Aircraft_Fins_MASS_SCALER, d_Fins_MASS__Fins_MASS_SCALER);
   (Aircraft_Fins_MASS, Aircraft_Design_GROSS_MASS, d_Fins_MASS__Design_GROSS_MASS)].

(** Inputs, outputs and declared partials: /repo/aviary/subsystems/mass/flops_based/fin.py L17-26 *)
Definition FinMass (op : options) : comp := {|
  c_ins := [Aircraft_Design_GROSS_MASS;
            Aircraft_Fins_AREA;
            Aircraft_Fins_TAPER_RATIO;
            Aircraft_Fins_MASS_SCALER];
  c_outs := [Aircraft_Fins_MASS];
  c_decl := [(Aircraft_Fins_MASS, Aircraft_Design_GROSS_MASS, 0);
             (Aircraft_Fins_MASS, Aircraft_Fins_AREA, 0);
             (Aircraft_Fins_MASS, Aircraft_Fins_TAPER_RATIO, 0);
             (Aircraft_Fins_MASS, Aircraft_Fins_MASS_SCALER, 0)];
  c_run := FinMass_compute op; c_jac := FinMass_partials op |}.

(** TransportFuselageMass.compute, /repo/aviary/subsystems/mass/flops_based/fuselage.py L32-53 *)
Definition TransportFuselageMass_compute (op : options) (e : env) : list (string * R) :=
  let length_ := e Aircraft_Fuselage_LENGTH in  (* L33 *)
  let scaler := e Aircraft_Fuselage_MASS_SCALER in  (* L34 *)
  let avg_diameter := e Aircraft_Fuselage_REF_DIAMETER in  (* L35 *)
  let num_fuse := on op Aircraft_Fuselage_NUM_FUSELAGES in  (* L37 *)
  let num_fuse_eng := on op Aircraft_Propulsion_TOTAL_NUM_FUSELAGE_ENGINES in  (* L38 *)
  let num_fuse_eng_fact := distributed_engine_count_factor num_fuse_eng in  (* L40 *)
  let military_cargo := ob op Aircraft_Fuselage_MILITARY_CARGO_FLOOR in  (* L41 *)
  let mil_factor := if military_cargo then 138 / 100 else 1 in  (* L43 *)
  let o_Fuselage_MASS := scaler * (135 / 100) * (avg_diameter * length_) ** (128 / 100) * (1 + 5 / 100 *
      num_fuse_eng_fact) * mil_factor * num_fuse / GRAV_ENGLISH_LBM in  (* L45 *)
  [(Aircraft_Fuselage_MASS, o_Fuselage_MASS)].

(** TransportFuselageMass.compute_partials, /repo/aviary/subsystems/mass/flops_based/fuselage.py L55-79 *)
Definition TransportFuselageMass_partials (op : options) (e : env) : list (string * string * R) :=
  let length_ := e Aircraft_Fuselage_LENGTH in  (* L56 *)
  let scaler := e Aircraft_Fuselage_MASS_SCALER in  (* L57 *)
  let avg_diameter := e Aircraft_Fuselage_REF_DIAMETER in  (* L58 *)
  let num_fuse := on op Aircraft_Fuselage_NUM_FUSELAGES in  (* L59 *)
  let num_fuse_eng := on op Aircraft_Propulsion_TOTAL_NUM_FUSELAGE_ENGINES in  (* L60 *)
  let num_fuse_eng_fact := distributed_engine_count_factor num_fuse_eng in  (* L61 *)
  let military_cargo := ob op Aircraft_Fuselage_MILITARY_CARGO_FLOOR in  (* L62 *)
  let avg_diameter_exp := avg_diameter ** (128 / 100) in  (* L65 *)
  let length_exp := length_ ** (128 / 100) in  (* L66 *)
  let height_width_exp := avg_diameter ** (28 / 100) in  (* L67 *)
  let mil_factor := if military_cargo then 138 / 100 else 1 in  (* L68 *)
  let addtl_factor := (1 + 5 / 100 * num_fuse_eng_fact) * mil_factor * num_fuse in  (* L69 *)
  let d_Fuselage_MASS__Fuselage_MASS_SCALER := 135 / 100 * avg_diameter_exp * length_exp * addtl_factor /
      GRAV_ENGLISH_LBM in  (* L71 *)
  let d_Fuselage_MASS__Fuselage_LENGTH := scaler * (1728 / 1000) * avg_diameter_exp * length_ ** (28 / 100) *
      addtl_factor / GRAV_ENGLISH_LBM in  (* L74 *)
  let d_Fuselage_MASS__Fuselage_REF_DIAMETER := scaler * (1728 / 1000) * length_exp * height_width_exp * addtl_factor
      / GRAV_ENGLISH_LBM in  (* L77 *)
  [(Aircraft_Fuselage_MASS, Aircraft_Fuselage_MASS_SCALER, d_Fuselage_MASS__Fuselage_MASS_SCALER);
   (Aircraft_Fuselage_MASS, Aircraft_Fuselage_LENGTH, d_Fuselage_MASS__Fuselage_LENGTH);
   (Aircraft_Fuselage_MASS, Aircraft_Fuselage_REF_DIAMETER, d_Fuselage_MASS__Fuselage_REF_DIAMETER)].

(** Inputs, outputs and declared partials: /repo/aviary/subsystems/mass/flops_based/fuselage.py L22-30 *)
Definition TransportFuselageMass (op : options) : comp := {|
  c_ins := [Aircraft_Fuselage_LENGTH;
            Aircraft_Fuselage_MASS_SCALER;
            Aircraft_Fuselage_REF_DIAMETER];
  c_outs := [Aircraft_Fuselage_MASS];
  c_decl := [(Aircraft_Fuselage_MASS, Aircraft_Fuselage_LENGTH, 0);
             (Aircraft_Fuselage_MASS, Aircraft_Fuselage_MASS_SCALER, 0);
             (Aircraft_Fuselage_MASS, Aircraft_Fuselage_REF_DIAMETER, 0)];
  c_run := TransportFuselageMass_compute op; c_jac := TransportFuselageMass_partials op |}.

(** AltFuselageMass.compute, /repo/aviary/subsystems/mass/flops_based/fuselage.py L100-112 *)
Definition AltFuselageMass_compute (op : options) (e : env) : list (string * R) :=
  let mass_scaler := e Aircraft_Fuselage_MASS_SCALER in  (* L101 *)
  let fuse_wetted_area := e Aircraft_Fuselage_WETTED_AREA in  (* L102 *)
  let fuse_height := e Aircraft_Fuselage_MAX_HEIGHT in  (* L103 *)
  let fuse_width := e Aircraft_Fuselage_MAX_WIDTH in  (* L104 *)
  let o_Fuselage_MASS := 3939 / 1000 * fuse_wetted_area / (fuse_height / fuse_width) ** (221 / 1000) * mass_scaler /
      GRAV_ENGLISH_LBM in  (* L106 *)
  [(Aircraft_Fuselage_MASS, o_Fuselage_MASS)].

(** AltFuselageMass.compute_partials, /repo/aviary/subsystems/mass/flops_based/fuselage.py L114-147 *)
Definition AltFuselageMass_partials (op : options) (e : env) : list (string * string * R) :=
  let mass_scaler := e Aircraft_Fuselage_MASS_SCALER in  (* L115 *)
  let fuse_wetted_area := e Aircraft_Fuselage_WETTED_AREA in  (* L116 *)
  let fuse_height := e Aircraft_Fuselage_MAX_HEIGHT in  (* L117 *)
  let fuse_width := e Aircraft_Fuselage_MAX_WIDTH in  (* L118 *)
  let fuse_height_fact := fuse_height ** (221 / 1000) in  (* L119 *)
  let fuse_width_fact := fuse_width ** (221 / 1000) in  (* L120 *)
  let total_fact := fuse_height_fact / fuse_width_fact in  (* L121 *)
  let d_Fuselage_MASS__Fuselage_MASS_SCALER := 3939 / 1000 * fuse_wetted_area / total_fact / GRAV_ENGLISH_LBM in  (* L123 *)
  let d_Fuselage_MASS__Fuselage_WETTED_AREA := 3939 / 1000 / total_fact * mass_scaler / GRAV_ENGLISH_LBM in  (* L127 *)
  let d_Fuselage_MASS__Fuselage_MAX_HEIGHT := - 870519 / 1000000 * fuse_wetted_area * fuse_width_fact * fuse_height **
      (- 1221 / 1000) * mass_scaler / GRAV_ENGLISH_LBM in  (* L131 *)
  let d_Fuselage_MASS__Fuselage_MAX_WIDTH := 870519 / 1000000 * fuse_wetted_area * fuse_width ** (- 779 / 1000) /
      fuse_height_fact * mass_scaler / GRAV_ENGLISH_LBM in  (* L140 *)
  [(Aircraft_Fuselage_MASS, Aircraft_Fuselage_MASS_SCALER, d_Fuselage_MASS__Fuselage_MASS_SCALER);
   (Aircraft_Fuselage_MASS, Aircraft_Fuselage_WETTED_AREA, d_Fuselage_MASS__Fuselage_WETTED_AREA);
   (Aircraft_Fuselage_MASS, Aircraft_Fuselage_MAX_HEIGHT, d_Fuselage_MASS__Fuselage_MAX_HEIGHT);
   (Aircraft_Fuselage_MASS, Aircraft_Fuselage_MAX_WIDTH, d_Fuselage_MASS__Fuselage_MAX_WIDTH)].

(** Inputs, outputs and declared partials: /repo/aviary/subsystems/mass/flops_based/fuselage.py L89-98 *)
Definition AltFuselageMass (op : options) : comp := {|
  c_ins := [Aircraft_Fuselage_MASS_SCALER;
            Aircraft_Fuselage_WETTED_AREA;
            Aircraft_Fuselage_MAX_HEIGHT;
            Aircraft_Fuselage_MAX_WIDTH];
  c_outs := [Aircraft_Fuselage_MASS];
  c_decl := [(Aircraft_Fuselage_MASS, Aircraft_Fuselage_MASS_SCALER, 0);
             (Aircraft_Fuselage_MASS, Aircraft_Fuselage_WETTED_AREA, 0);
             (Aircraft_Fuselage_MASS, Aircraft_Fuselage_MAX_HEIGHT, 0);
             (Aircraft_Fuselage_MASS, Aircraft_Fuselage_MAX_WIDTH, 0)];
  c_run := AltFuselageMass_compute op; c_jac := AltFuselageMass_partials op |}.

(** BWBFuselageMass.compute, /repo/aviary/subsystems/mass/flops_based/fuselage.py L170-180 *)
Definition BWBFuselageMass_compute (op : options) (e : env) : list (string * R) :=
  let gross_weight := e Aircraft_Design_GROSS_MASS * GRAV_ENGLISH_LBM in  (* L172 *)
  let cabin_area := e Aircraft_Fuselage_CABIN_AREA in  (* L173 *)
  let mass_scaler := e Aircraft_Fuselage_MASS_SCALER in  (* L174 *)
  let o_Fuselage_MASS := mass_scaler * (18 / 10) * gross_weight ** (167 / 1000) * cabin_area ** (106 / 100) in  (* L180 *)
  [(Aircraft_Fuselage_MASS, o_Fuselage_MASS)].

(** BWBFuselageMass.compute_partials, /repo/aviary/subsystems/mass/flops_based/fuselage.py L182-195 *)
Definition BWBFuselageMass_partials (op : options) (e : env) : list (string * string * R) :=
  let gross_weight := e Aircraft_Design_GROSS_MASS * GRAV_ENGLISH_LBM in  (* L183 *)
  let cabin_area := e Aircraft_Fuselage_CABIN_AREA in  (* L184 *)
  let mass_scaler := e Aircraft_Fuselage_MASS_SCALER in  (* L185 *)
  let d_Fuselage_MASS__Design_GROSS_MASS := mass_scaler * (167 / 1000) * (18 / 10) * gross_weight ** (- 833 / 1000) *
      cabin_area ** (106 / 100) * GRAV_ENGLISH_LBM in  (* L187 *)
  let d_Fuselage_MASS__Fuselage_CABIN_AREA := mass_scaler * (106 / 100) * (18 / 10) * gross_weight ** (167 / 1000) *
      cabin_area ** (6 / 100) in  (* L190 *)
  let d_Fuselage_MASS__Fuselage_MASS_SCALER := 18 / 10 * gross_weight ** (167 / 1000) * cabin_area ** (106 / 100) in  (* L193 *)
  [(Aircraft_Fuselage_MASS, Aircraft_Design_GROSS_MASS, d_Fuselage_MASS__Design_GROSS_MASS);
   (Aircraft_Fuselage_MASS, Aircraft_Fuselage_CABIN_AREA, d_Fuselage_MASS__Fuselage_CABIN_AREA);
   (Aircraft_Fuselage_MASS, Aircraft_Fuselage_MASS_SCALER, d_Fuselage_MASS__Fuselage_MASS_SCALER)].

(** Inputs, outputs and declared partials: /repo/aviary/subsystems/mass/flops_based/fuselage.py L160-168 *)
Definition BWBFuselageMass (op : options) : comp := {|
  c_ins := [Aircraft_Design_GROSS_MASS;
            Aircraft_Fuselage_CABIN_AREA;
            Aircraft_Fuselage_MASS_SCALER];
  c_outs := [Aircraft_Fuselage_MASS];
  c_decl := [(Aircraft_Fuselage_MASS, Aircraft_Design_GROSS_MASS, 0);
             (Aircraft_Fuselage_MASS, Aircraft_Fuselage_CABIN_AREA, 0);
             (Aircraft_Fuselage_MASS, Aircraft_Fuselage_MASS_SCALER, 0)];
  c_run := BWBFuselageMass_compute op; c_jac := BWBFuselageMass_partials op |}.

(** HorizontalTailMass.compute, /repo/aviary/subsystems/mass/flops_based/horizontal_tail.py L28-43 *)
Definition HorizontalTailMass_compute (op : options) (e : env) : list (string * R) :=
  let num_tails := on op Aircraft_HorizontalTail_NUM_TAILS in  (* L29 *)
  let area := e Aircraft_HorizontalTail_AREA in  (* L31 *)
  let gross_weight := e Aircraft_Design_GROSS_MASS * GRAV_ENGLISH_LBM in  (* L32 *)
  let scaler := e Aircraft_HorizontalTail_MASS_SCALER in  (* L33 *)
  let taper_ratio := e Aircraft_HorizontalTail_TAPER_RATIO in  (* L34 *)
  let o_HorizontalTail_MASS :=  (* L36 *)
    if eqb num_tails 1 then
      let o_HorizontalTail_MASS := scaler * (53 / 100) * area * gross_weight ** (2 / 10) * (taper_ratio + 5 / 10) /
          GRAV_ENGLISH_LBM in  (* L37 *)
      o_HorizontalTail_MASS
    else
      let o_HorizontalTail_MASS :=  (* L40 *)
        if eqb num_tails 0 then
          let o_HorizontalTail_MASS := 0 in  (* L41 *)
          o_HorizontalTail_MASS
        else
          0 in
      o_HorizontalTail_MASS in
  [(Aircraft_HorizontalTail_MASS, o_HorizontalTail_MASS)].

(** HorizontalTailMass.compute_partials, /repo/aviary/subsystems/mass/flops_based/horizontal_tail.py L45-75 *)
Definition HorizontalTailMass_partials (op : options) (e : env) : list (string * string * R) :=
  let num_tails := on op Aircraft_HorizontalTail_NUM_TAILS in  (* L46 *)
  let area := e Aircraft_HorizontalTail_AREA in  (* L48 *)
  let gross_weight := e Aircraft_Design_GROSS_MASS * GRAV_ENGLISH_LBM in  (* L49 *)
  let scaler := e Aircraft_HorizontalTail_MASS_SCALER in  (* L50 *)
  let taper_ratio := e Aircraft_HorizontalTail_TAPER_RATIO in  (* L51 *)
  let gross_weight_exp := gross_weight ** (2 / 10) in  (* L53 *)
  let '(d_HorizontalTail_MASS__HorizontalTail_AREA, d_HorizontalTail_MASS__HorizontalTail_MASS_SCALER,
      d_HorizontalTail_MASS__Design_GROSS_MASS, d_HorizontalTail_MASS__HorizontalTail_TAPER_RATIO) :=  (* L55 *)
    if eqb num_tails 1 then
      let d_HorizontalTail_MASS__HorizontalTail_AREA := scaler * (53 / 100) * gross_weight_exp * (taper_ratio + 5 /
          10) / GRAV_ENGLISH_LBM in  (* L56 *)
      let d_HorizontalTail_MASS__HorizontalTail_MASS_SCALER := 53 / 100 * area * gross_weight_exp * (taper_ratio + 5 /
          10) / GRAV_ENGLISH_LBM in  (* L60 *)
      let d_HorizontalTail_MASS__Design_GROSS_MASS := scaler * (106 / 1000) * area * gross_weight ** (- 8 / 10) *
          (taper_ratio + 5 / 10) in  (* L64 *)
      let d_HorizontalTail_MASS__HorizontalTail_TAPER_RATIO := scaler * (53 / 100) * area * gross_weight_exp /
          GRAV_ENGLISH_LBM in  (* L68 *)
      (d_HorizontalTail_MASS__HorizontalTail_AREA, d_HorizontalTail_MASS__HorizontalTail_MASS_SCALER,
          d_HorizontalTail_MASS__Design_GROSS_MASS, d_HorizontalTail_MASS__HorizontalTail_TAPER_RATIO)
    else
      let '(d_HorizontalTail_MASS__HorizontalTail_AREA, d_HorizontalTail_MASS__HorizontalTail_MASS_SCALER,
          d_HorizontalTail_MASS__Design_GROSS_MASS, d_HorizontalTail_MASS__HorizontalTail_TAPER_RATIO) :=  (* L71 *)
        if eqb num_tails 0 then
          let d_HorizontalTail_MASS__HorizontalTail_AREA := 0 in  (* L72 *)
          let d_HorizontalTail_MASS__HorizontalTail_MASS_SCALER := 0 in  (* L73 *)
          let d_HorizontalTail_MASS__Design_GROSS_MASS := 0 in  (* L74 *)
          let d_HorizontalTail_MASS__HorizontalTail_TAPER_RATIO := 0 in  (* L75 *)
          (d_HorizontalTail_MASS__HorizontalTail_AREA, d_HorizontalTail_MASS__HorizontalTail_MASS_SCALER,
              d_HorizontalTail_MASS__Design_GROSS_MASS, d_HorizontalTail_MASS__HorizontalTail_TAPER_RATIO)
        else
          (0, 0, 0, 0) in
      (d_HorizontalTail_MASS__HorizontalTail_AREA, d_HorizontalTail_MASS__HorizontalTail_MASS_SCALER,
          d_HorizontalTail_MASS__Design_GROSS_MASS, d_HorizontalTail_MASS__HorizontalTail_TAPER_RATIO) in
  [(Aircraft_HorizontalTail_MASS, Aircraft_HorizontalTail_AREA, d_HorizontalTail_MASS__HorizontalTail_AREA);
   (Aircraft_HorizontalTail_MASS, Aircraft_HorizontalTail_MASS_SCALER,
       d_HorizontalTail_MASS__HorizontalTail_MASS_SCALER);
   (Aircraft_HorizontalTail_MASS, Aircraft_Design_GROSS_MASS, d_HorizontalTail_MASS__Design_GROSS_MASS);
   (Aircraft_HorizontalTail_MASS, Aircraft_HorizontalTail_TAPER_RATIO,
       d_HorizontalTail_MASS__HorizontalTail_TAPER_RATIO)].

(** Inputs, outputs and declared partials: /repo/aviary/subsystems/mass/flops_based/horizontal_tail.py L17-26 *)
Definition HorizontalTailMass (op : options) : comp := {|
  c_ins := [Aircraft_HorizontalTail_AREA;
            Aircraft_HorizontalTail_TAPER_RATIO;
            Aircraft_Design_GROSS_MASS;
            Aircraft_HorizontalTail_MASS_SCALER];
  c_outs := [Aircraft_HorizontalTail_MASS];
  c_decl := [(Aircraft_HorizontalTail_MASS, Aircraft_HorizontalTail_AREA, 0);
             (Aircraft_HorizontalTail_MASS, Aircraft_HorizontalTail_TAPER_RATIO, 0);
             (Aircraft_HorizontalTail_MASS, Aircraft_Design_GROSS_MASS, 0);
             (Aircraft_HorizontalTail_MASS, Aircraft_HorizontalTail_MASS_SCALER, 0)];
  c_run := HorizontalTailMass_compute op; c_jac := HorizontalTailMass_partials op |}.

(** AltHorizontalTailMass.compute, /repo/aviary/subsystems/mass/flops_based/horizontal_tail.py L94-98 *)
Definition AltHorizontalTailMass_compute (op : options) (e : env) : list (string * R) :=
  let area := e Aircraft_HorizontalTail_AREA in  (* L95 *)
  let scaler := e Aircraft_HorizontalTail_MASS_SCALER in  (* L96 *)
  let o_HorizontalTail_MASS := scaler * (54 / 10) * area / GRAV_ENGLISH_LBM in  (* L98 *)
  [(Aircraft_HorizontalTail_MASS, o_HorizontalTail_MASS)].

(** AltHorizontalTailMass.compute_partials, /repo/aviary/subsystems/mass/flops_based/horizontal_tail.py L100-110 *)
Definition AltHorizontalTailMass_partials (op : options) (e : env) : list (string * string * R) :=
  let area := e Aircraft_HorizontalTail_AREA in  (* L101 *)
  let scaler := e Aircraft_HorizontalTail_MASS_SCALER in  (* L102 *)
  let d_HorizontalTail_MASS__HorizontalTail_AREA := 54 / 10 * scaler / GRAV_ENGLISH_LBM in  (* L104 *)
  let d_HorizontalTail_MASS__HorizontalTail_MASS_SCALER := 54 / 10 * area / GRAV_ENGLISH_LBM in  (* L108 *)
  [(Aircraft_HorizontalTail_MASS, Aircraft_HorizontalTail_AREA, d_HorizontalTail_MASS__HorizontalTail_AREA);
   (Aircraft_HorizontalTail_MASS, Aircraft_HorizontalTail_MASS_SCALER,
       d_HorizontalTail_MASS__HorizontalTail_MASS_SCALER)].

(** Inputs, outputs and declared partials: /repo/aviary/subsystems/mass/flops_based/horizontal_tail.py L85-92 *)
Definition AltHorizontalTailMass (op : options) : comp := {|
  c_ins := [Aircraft_HorizontalTail_AREA;
            Aircraft_HorizontalTail_MASS_SCALER];
  c_outs := [Aircraft_HorizontalTail_MASS];
  c_decl := [(Aircraft_HorizontalTail_MASS, Aircraft_HorizontalTail_AREA, 0);
             (Aircraft_HorizontalTail_MASS, Aircraft_HorizontalTail_MASS_SCALER, 0)];
  c_run := AltHorizontalTailMass_compute op; c_jac := AltHorizontalTailMass_partials op |}.

(** VerticalTailMass.compute, /repo/aviary/subsystems/mass/flops_based/vertical_tail.py L28-44 *)
Definition VerticalTailMass_compute (op : options) (e : env) : list (string * R) :=
  let num_tails := on op Aircraft_VerticalTail_NUM_TAILS in  (* L29 *)
  let area := e Aircraft_VerticalTail_AREA in  (* L31 *)
  let taper_ratio := e Aircraft_VerticalTail_TAPER_RATIO in  (* L32 *)
  let scaler := e Aircraft_VerticalTail_MASS_SCALER in  (* L33 *)
  let gross_weight := e Aircraft_Design_GROSS_MASS * GRAV_ENGLISH_LBM in  (* L34 *)
  let o_VerticalTail_MASS := scaler * (32 / 100) * gross_weight ** (3 / 10) * (taper_ratio + 5 / 10) * area ** (85 /
      100) * num_tails ** (7 / 10) / GRAV_ENGLISH_LBM in  (* L36 *)
  [(Aircraft_VerticalTail_MASS, o_VerticalTail_MASS)].

(** VerticalTailMass.compute_partials, /repo/aviary/subsystems/mass/flops_based/vertical_tail.py L46-86 *)
Definition VerticalTailMass_partials (op : options) (e : env) : list (string * string * R) :=
  let num_tails := on op Aircraft_VerticalTail_NUM_TAILS in  (* L47 *)
  let area := e Aircraft_VerticalTail_AREA in  (* L49 *)
  let gross_weight := e Aircraft_Design_GROSS_MASS * GRAV_ENGLISH_LBM in  (* L50 *)
  let taper_ratio := e Aircraft_VerticalTail_TAPER_RATIO in  (* L51 *)
  let scaler := e Aircraft_VerticalTail_MASS_SCALER in  (* L52 *)
  let gross_weight_exp := gross_weight ** (3 / 10) in  (* L54 *)
  let area_exp := area ** (85 / 100) in  (* L55 *)
  let num_tails_exp := num_tails ** (7 / 10) in  (* L56 *)
  let d_VerticalTail_MASS__VerticalTail_AREA :=  (* L58 *)
    if ltb 0 area then
      let d_VerticalTail_MASS__VerticalTail_AREA := scaler * (272 / 1000) * gross_weight_exp * (taper_ratio + 5 / 10)
          * area ** (- 15 / 100) * num_tails_exp / GRAV_ENGLISH_LBM in  (* L59 *)
      d_VerticalTail_MASS__VerticalTail_AREA
    else
      let d_VerticalTail_MASS__VerticalTail_AREA := 0 in  (* L69 *)
      d_VerticalTail_MASS__VerticalTail_AREA in
  let d_VerticalTail_MASS__Design_GROSS_MASS := scaler * (96 / 1000) * gross_weight ** (- 7 / 10) * (taper_ratio + 5 /
      10) * area_exp * num_tails_exp in  (* L71 *)
  let d_VerticalTail_MASS__VerticalTail_TAPER_RATIO := scaler * (32 / 100) * gross_weight_exp * area_exp *
      num_tails_exp / GRAV_ENGLISH_LBM in  (* L75 *)
  let d_VerticalTail_MASS__VerticalTail_MASS_SCALER := 32 / 100 * gross_weight_exp * (taper_ratio + 5 / 10) * area_exp
      * num_tails_exp / GRAV_ENGLISH_LBM in  (* L79 *)
  [(Aircraft_VerticalTail_MASS, Aircraft_VerticalTail_AREA, d_VerticalTail_MASS__VerticalTail_AREA);
   (Aircraft_VerticalTail_MASS, Aircraft_Design_GROSS_MASS, d_VerticalTail_MASS__Design_GROSS_MASS);
   (Aircraft_VerticalTail_MASS, Aircraft_VerticalTail_TAPER_RATIO, d_VerticalTail_MASS__VerticalTail_TAPER_RATIO);
   (Aircraft_VerticalTail_MASS, Aircraft_VerticalTail_MASS_SCALER, d_VerticalTail_MASS__VerticalTail_MASS_SCALER)].

(** Inputs, outputs and declared partials: /repo/aviary/subsystems/mass/flops_based/vertical_tail.py L17-26 *)
Definition VerticalTailMass (op : options) : comp := {|
  c_ins := [Aircraft_VerticalTail_AREA;
            Aircraft_VerticalTail_TAPER_RATIO;
            Aircraft_VerticalTail_MASS_SCALER;
            Aircraft_Design_GROSS_MASS];
  c_outs := [Aircraft_VerticalTail_MASS];
  c_decl := [(Aircraft_VerticalTail_MASS, Aircraft_VerticalTail_AREA, 0);
             (Aircraft_VerticalTail_MASS, Aircraft_VerticalTail_TAPER_RATIO, 0);
             (Aircraft_VerticalTail_MASS, Aircraft_VerticalTail_MASS_SCALER, 0);
             (Aircraft_VerticalTail_MASS, Aircraft_Design_GROSS_MASS, 0)];
  c_run := VerticalTailMass_compute op; c_jac := VerticalTailMass_partials op |}.

(** AltVerticalTailMass.compute, /repo/aviary/subsystems/mass/flops_based/vertical_tail.py L106-110 *)
Definition AltVerticalTailMass_compute (op : options) (e : env) : list (string * R) :=
  let area := e Aircraft_VerticalTail_AREA in  (* L107 *)
  let scaler := e Aircraft_VerticalTail_MASS_SCALER in  (* L108 *)
  let o_VerticalTail_MASS := scaler * 6 * area in  (* L110 *)
  [(Aircraft_VerticalTail_MASS, o_VerticalTail_MASS)].

(** AltVerticalTailMass.compute_partials, /repo/aviary/subsystems/mass/flops_based/vertical_tail.py L112-118 *)
Definition AltVerticalTailMass_partials (op : options) (e : env) : list (string * string * R) :=
  let area := e Aircraft_VerticalTail_AREA in  (* L113 *)
  let scaler := e Aircraft_VerticalTail_MASS_SCALER in  (* L114 *)
  let d_VerticalTail_MASS__VerticalTail_AREA := 6 * scaler in  (* L116 *)
  let d_VerticalTail_MASS__VerticalTail_MASS_SCALER := 6 * area in  (* L118 *)
  [(Aircraft_VerticalTail_MASS, Aircraft_VerticalTail_AREA, d_VerticalTail_MASS__VerticalTail_AREA);
   (Aircraft_VerticalTail_MASS, Aircraft_VerticalTail_MASS_SCALER, d_VerticalTail_MASS__VerticalTail_MASS_SCALER)].

(** Inputs, outputs and declared partials: /repo/aviary/subsystems/mass/flops_based/vertical_tail.py L96-104 *)
Definition AltVerticalTailMass (op : options) : comp := {|
  c_ins := [Aircraft_VerticalTail_AREA;
            Aircraft_VerticalTail_MASS_SCALER];
  c_outs := [Aircraft_VerticalTail_MASS];
  c_decl := [(Aircraft_VerticalTail_MASS, Aircraft_VerticalTail_AREA, 0);
             (Aircraft_VerticalTail_MASS, Aircraft_VerticalTail_MASS_SCALER, 0)];
  c_run := AltVerticalTailMass_compute op; c_jac := AltVerticalTailMass_partials op |}.

(** LandingGearTotalMass.compute, /repo/aviary/subsystems/mass/flops_based/landing_gear.py L52-56 *)
Definition LandingGearTotalMass_compute (op : options) (e : env) : list (string * R) :=
  let main_gear_mass := e Aircraft_LandingGear_MAIN_GEAR_MASS in  (* L53 *)
  let nose_gear_mass := e Aircraft_LandingGear_NOSE_GEAR_MASS in  (* L54 *)
  let o_LandingGear_TOTAL_MASS := main_gear_mass + nose_gear_mass in  (* L56 *)
  [(Aircraft_LandingGear_TOTAL_MASS, o_LandingGear_TOTAL_MASS)].

Definition LandingGearTotalMass_partials (op : options) (e : env) : list (string * string * R) := [].

(** Inputs, outputs and declared partials: /repo/aviary/subsystems/mass/flops_based/landing_gear.py L43-50 *)
Definition LandingGearTotalMass (op : options) : comp := {|
  c_ins := [Aircraft_LandingGear_MAIN_GEAR_MASS;
            Aircraft_LandingGear_NOSE_GEAR_MASS];
  c_outs := [Aircraft_LandingGear_TOTAL_MASS];
  c_decl := [(Aircraft_LandingGear_TOTAL_MASS, Aircraft_LandingGear_MAIN_GEAR_MASS, 1);
             (Aircraft_LandingGear_TOTAL_MASS, Aircraft_LandingGear_NOSE_GEAR_MASS, 1)];
  c_run := LandingGearTotalMass_compute op; c_jac := LandingGearTotalMass_partials op |}.

(** MainGearMass.compute, /repo/aviary/subsystems/mass/flops_based/landing_gear.py L84-97 *)
Definition MainGearMass_compute (op : options) (e : env) : list (string * R) :=
  let main_gear_length := e Aircraft_LandingGear_MAIN_GEAR_OLEO_LENGTH in  (* L85 *)
  let main_gear_scaler := e Aircraft_LandingGear_MAIN_GEAR_MASS_SCALER in  (* L86 *)
  let landing_weight := e Aircraft_Design_TOUCHDOWN_MASS_MAX * GRAV_ENGLISH_LBM in  (* L87 *)
  let main_gear_mass := 117 / 10000 * landing_weight ** (95 / 100) * main_gear_length ** (43 / 100) * main_gear_scaler
      / GRAV_ENGLISH_LBM in  (* L89 *)
  let o_LandingGear_MAIN_GEAR_MASS := main_gear_mass in  (* L97 *)
  [(Aircraft_LandingGear_MAIN_GEAR_MASS, o_LandingGear_MAIN_GEAR_MASS)].

(** MainGearMass.compute_partials, /repo/aviary/subsystems/mass/flops_based/landing_gear.py L99-119 *)
Definition MainGearMass_partials (op : options) (e : env) : list (string * string * R) :=
  let main_gear_length := e Aircraft_LandingGear_MAIN_GEAR_OLEO_LENGTH in  (* L100 *)
  let main_gear_scaler := e Aircraft_LandingGear_MAIN_GEAR_MASS_SCALER in  (* L101 *)
  let landing_weight := e Aircraft_Design_TOUCHDOWN_MASS_MAX * GRAV_ENGLISH_LBM in  (* L102 *)
  let landing_weight_exp := landing_weight ** (95 / 100) in  (* L104 *)
  let main_gear_length_exp := main_gear_length ** (43 / 100) in  (* L105 *)
  let d_LandingGear_MAIN_GEAR_MASS__LandingGear_MAIN_GEAR_OLEO_LENGTH := 5031 / 1000000 * landing_weight_exp *
      main_gear_length ** (- 57 / 100) * main_gear_scaler / GRAV_ENGLISH_LBM in  (* L107 *)
  let d_LandingGear_MAIN_GEAR_MASS__LandingGear_MAIN_GEAR_MASS_SCALER := 117 / 10000 * landing_weight_exp *
      main_gear_length_exp / GRAV_ENGLISH_LBM in  (* L114 *)
  let d_LandingGear_MAIN_GEAR_MASS__Design_TOUCHDOWN_MASS_MAX := 11115 / 1000000 * landing_weight ** (- 5 / 100) *
      main_gear_length_exp * main_gear_scaler in  (* L117 *)
  [(Aircraft_LandingGear_MAIN_GEAR_MASS, Aircraft_LandingGear_MAIN_GEAR_OLEO_LENGTH,
      d_LandingGear_MAIN_GEAR_MASS__LandingGear_MAIN_GEAR_OLEO_LENGTH);
   (Aircraft_LandingGear_MAIN_GEAR_MASS, Aircraft_LandingGear_MAIN_GEAR_MASS_SCALER,
       d_LandingGear_MAIN_GEAR_MASS__LandingGear_MAIN_GEAR_MASS_SCALER);
   (Aircraft_LandingGear_MAIN_GEAR_MASS, Aircraft_Design_TOUCHDOWN_MASS_MAX,
       d_LandingGear_MAIN_GEAR_MASS__Design_TOUCHDOWN_MASS_MAX)].

(** Inputs, outputs and declared partials: /repo/aviary/subsystems/mass/flops_based/landing_gear.py L67-82 *)
Definition MainGearMass (op : options) : comp := {|
  c_ins := [Aircraft_LandingGear_MAIN_GEAR_OLEO_LENGTH;
            Aircraft_LandingGear_MAIN_GEAR_MASS_SCALER;
            Aircraft_Design_TOUCHDOWN_MASS_MAX];
  c_outs := [Aircraft_LandingGear_MAIN_GEAR_MASS];
  c_decl := [(Aircraft_LandingGear_MAIN_GEAR_MASS, Aircraft_LandingGear_MAIN_GEAR_OLEO_LENGTH, 0);
             (Aircraft_LandingGear_MAIN_GEAR_MASS, Aircraft_LandingGear_MAIN_GEAR_MASS_SCALER, 0);
             (Aircraft_LandingGear_MAIN_GEAR_MASS, Aircraft_Design_TOUCHDOWN_MASS_MAX, 0)];
  c_run := MainGearMass_compute op; c_jac := MainGearMass_partials op |}.

(** NoseGearMass.compute, /repo/aviary/subsystems/mass/flops_based/landing_gear.py L147-160 *)
Definition NoseGearMass_compute (op : options) (e : env) : list (string * R) :=
  let nose_gear_length := e Aircraft_LandingGear_NOSE_GEAR_OLEO_LENGTH in  (* L148 *)
  let nose_gear_scaler := e Aircraft_LandingGear_NOSE_GEAR_MASS_SCALER in  (* L149 *)
  let landing_weight := e Aircraft_Design_TOUCHDOWN_MASS_MAX * GRAV_ENGLISH_LBM in  (* L150 *)
  let nose_gear_mass := 48 / 1000 * landing_weight ** (67 / 100) * nose_gear_length ** (43 / 100) * nose_gear_scaler /
      GRAV_ENGLISH_LBM in  (* L152 *)
  let o_LandingGear_NOSE_GEAR_MASS := nose_gear_mass in  (* L160 *)
  [(Aircraft_LandingGear_NOSE_GEAR_MASS, o_LandingGear_NOSE_GEAR_MASS)].

(** NoseGearMass.compute_partials, /repo/aviary/subsystems/mass/flops_based/landing_gear.py L162-182 *)
Definition NoseGearMass_partials (op : options) (e : env) : list (string * string * R) :=
  let nose_gear_length := e Aircraft_LandingGear_NOSE_GEAR_OLEO_LENGTH in  (* L163 *)
  let nose_gear_scaler := e Aircraft_LandingGear_NOSE_GEAR_MASS_SCALER in  (* L164 *)
  let landing_weight := e Aircraft_Design_TOUCHDOWN_MASS_MAX * GRAV_ENGLISH_LBM in  (* L165 *)
  let landing_weight_exp := landing_weight ** (67 / 100) in  (* L167 *)
  let nose_gear_length_exp := nose_gear_length ** (43 / 100) in  (* L168 *)
  let d_LandingGear_NOSE_GEAR_MASS__LandingGear_NOSE_GEAR_OLEO_LENGTH := 2064 / 100000 * landing_weight_exp *
      nose_gear_length ** (- 57 / 100) * nose_gear_scaler / GRAV_ENGLISH_LBM in  (* L170 *)
  let d_LandingGear_NOSE_GEAR_MASS__LandingGear_NOSE_GEAR_MASS_SCALER := 48 / 1000 * landing_weight_exp *
      nose_gear_length_exp / GRAV_ENGLISH_LBM in  (* L177 *)
  let d_LandingGear_NOSE_GEAR_MASS__Design_TOUCHDOWN_MASS_MAX := 3216 / 100000 * landing_weight ** (- 33 / 100) *
      nose_gear_length_exp * nose_gear_scaler in  (* L180 *)
  [(Aircraft_LandingGear_NOSE_GEAR_MASS, Aircraft_LandingGear_NOSE_GEAR_OLEO_LENGTH,
      d_LandingGear_NOSE_GEAR_MASS__LandingGear_NOSE_GEAR_OLEO_LENGTH);
   (Aircraft_LandingGear_NOSE_GEAR_MASS, Aircraft_LandingGear_NOSE_GEAR_MASS_SCALER,
       d_LandingGear_NOSE_GEAR_MASS__LandingGear_NOSE_GEAR_MASS_SCALER);
   (Aircraft_LandingGear_NOSE_GEAR_MASS, Aircraft_Design_TOUCHDOWN_MASS_MAX,
       d_LandingGear_NOSE_GEAR_MASS__Design_TOUCHDOWN_MASS_MAX)].

(** Inputs, outputs and declared partials: /repo/aviary/subsystems/mass/flops_based/landing_gear.py L130-145 *)
Definition NoseGearMass (op : options) : comp := {|
  c_ins := [Aircraft_LandingGear_NOSE_GEAR_OLEO_LENGTH;
            Aircraft_LandingGear_NOSE_GEAR_MASS_SCALER;
            Aircraft_Design_TOUCHDOWN_MASS_MAX];
  c_outs := [Aircraft_LandingGear_NOSE_GEAR_MASS];
  c_decl := [(Aircraft_LandingGear_NOSE_GEAR_MASS, Aircraft_LandingGear_NOSE_GEAR_OLEO_LENGTH, 0);
             (Aircraft_LandingGear_NOSE_GEAR_MASS, Aircraft_LandingGear_NOSE_GEAR_MASS_SCALER, 0);
             (Aircraft_LandingGear_NOSE_GEAR_MASS, Aircraft_Design_TOUCHDOWN_MASS_MAX, 0)];
  c_run := NoseGearMass_compute op; c_jac := NoseGearMass_partials op |}.

(** AltLandingGearMass.compute, /repo/aviary/subsystems/mass/flops_based/landing_gear.py L222-242 *)
Definition AltLandingGearMass_compute (op : options) (e : env) : list (string * R) :=
  let main_gear_length := e Aircraft_LandingGear_MAIN_GEAR_OLEO_LENGTH in  (* L223 *)
  let main_gear_scaler := e Aircraft_LandingGear_MAIN_GEAR_MASS_SCALER in  (* L224 *)
  let nose_gear_length := e Aircraft_LandingGear_NOSE_GEAR_OLEO_LENGTH in  (* L225 *)
  let nose_gear_scaler := e Aircraft_LandingGear_NOSE_GEAR_MASS_SCALER in  (* L226 *)
  let gross_weight := e Aircraft_Design_GROSS_MASS * GRAV_ENGLISH_LBM in  (* L227 *)
  let unscaled_total_gear_mass := gross_weight * ((30100 + 3876 / 10000 * main_gear_length * main_gear_length + 9579 /
      100000 * nose_gear_length * nose_gear_length) / 1000000) in  (* L229 *)
  let main_gear_mass := 85 / 100 * unscaled_total_gear_mass * main_gear_scaler / GRAV_ENGLISH_LBM in  (* L238 *)
  let nose_gear_mass := 15 / 100 * unscaled_total_gear_mass * nose_gear_scaler / GRAV_ENGLISH_LBM in  (* L239 *)
  let o_LandingGear_MAIN_GEAR_MASS := main_gear_mass in  (* L241 *)
  let o_LandingGear_NOSE_GEAR_MASS := nose_gear_mass in  (* L242 *)
  [(Aircraft_LandingGear_MAIN_GEAR_MASS, o_LandingGear_MAIN_GEAR_MASS);
   (Aircraft_LandingGear_NOSE_GEAR_MASS, o_LandingGear_NOSE_GEAR_MASS)].

(** AltLandingGearMass.compute_partials, /repo/aviary/subsystems/mass/flops_based/landing_gear.py L244-290 *)
Definition AltLandingGearMass_partials (op : options) (e : env) : list (string * string * R) :=
  let main_gear_length := e Aircraft_LandingGear_MAIN_GEAR_OLEO_LENGTH in  (* L245 *)
  let main_gear_scaler := e Aircraft_LandingGear_MAIN_GEAR_MASS_SCALER in  (* L246 *)
  let nose_gear_length := e Aircraft_LandingGear_NOSE_GEAR_OLEO_LENGTH in  (* L247 *)
  let nose_gear_scaler := e Aircraft_LandingGear_NOSE_GEAR_MASS_SCALER in  (* L248 *)
  let gross_weight := e Aircraft_Design_GROSS_MASS * GRAV_ENGLISH_LBM in  (* L249 *)
  let total_gear_fact := (30100 + 3876 / 10000 * main_gear_length * main_gear_length + 9579 / 100000 *
      nose_gear_length * nose_gear_length) / 1000000 in  (* L251 *)
  let total_gear_weight := gross_weight * total_gear_fact in  (* L256 *)
  let total_gear_weight_dmain := gross_weight * (7752 / 10000000000) * main_gear_length in  (* L257 *)
  let total_gear_weight_dnose := gross_weight * (19158 / 100000000000) * nose_gear_length in  (* L258 *)
  let d_LandingGear_MAIN_GEAR_MASS__LandingGear_MAIN_GEAR_OLEO_LENGTH := 85 / 100 * total_gear_weight_dmain *
      main_gear_scaler / GRAV_ENGLISH_LBM in  (* L260 *)
  let d_LandingGear_MAIN_GEAR_MASS__LandingGear_NOSE_GEAR_OLEO_LENGTH := 85 / 100 * total_gear_weight_dnose *
      main_gear_scaler / GRAV_ENGLISH_LBM in  (* L264 *)
  let d_LandingGear_MAIN_GEAR_MASS__LandingGear_MAIN_GEAR_MASS_SCALER := 85 / 100 * total_gear_weight /
      GRAV_ENGLISH_LBM in  (* L268 *)
  let d_LandingGear_MAIN_GEAR_MASS__Design_GROSS_MASS := 85 / 100 * total_gear_fact * main_gear_scaler in  (* L272 *)
  let d_LandingGear_NOSE_GEAR_MASS__LandingGear_MAIN_GEAR_OLEO_LENGTH := 15 / 100 * total_gear_weight_dmain *
      nose_gear_scaler / GRAV_ENGLISH_LBM in  (* L276 *)
  let d_LandingGear_NOSE_GEAR_MASS__LandingGear_NOSE_GEAR_OLEO_LENGTH := 15 / 100 * total_gear_weight_dnose *
      nose_gear_scaler / GRAV_ENGLISH_LBM in  (* L280 *)
  let d_LandingGear_NOSE_GEAR_MASS__LandingGear_NOSE_GEAR_MASS_SCALER := 15 / 100 * total_gear_weight /
      GRAV_ENGLISH_LBM in  (* L284 *)
  let d_LandingGear_NOSE_GEAR_MASS__Design_GROSS_MASS := 15 / 100 * total_gear_fact * nose_gear_scaler in  (* L288 *)
  [(Aircraft_LandingGear_MAIN_GEAR_MASS, Aircraft_LandingGear_MAIN_GEAR_OLEO_LENGTH,
      d_LandingGear_MAIN_GEAR_MASS__LandingGear_MAIN_GEAR_OLEO_LENGTH);
   (Aircraft_LandingGear_MAIN_GEAR_MASS, Aircraft_LandingGear_NOSE_GEAR_OLEO_LENGTH,
       d_LandingGear_MAIN_GEAR_MASS__LandingGear_NOSE_GEAR_OLEO_LENGTH);
   (Aircraft_LandingGear_MAIN_GEAR_MASS, Aircraft_LandingGear_MAIN_GEAR_MASS_SCALER,
       d_LandingGear_MAIN_GEAR_MASS__LandingGear_MAIN_GEAR_MASS_SCALER);
   (Aircraft_LandingGear_MAIN_GEAR_MASS, Aircraft_Design_GROSS_MASS, d_LandingGear_MAIN_GEAR_MASS__Design_GROSS_MASS);
   (Aircraft_LandingGear_NOSE_GEAR_MASS, Aircraft_LandingGear_MAIN_GEAR_OLEO_LENGTH,
       d_LandingGear_NOSE_GEAR_MASS__LandingGear_MAIN_GEAR_OLEO_LENGTH);
   (Aircraft_LandingGear_NOSE_GEAR_MASS, Aircraft_LandingGear_NOSE_GEAR_OLEO_LENGTH,
       d_LandingGear_NOSE_GEAR_MASS__LandingGear_NOSE_GEAR_OLEO_LENGTH);
   (Aircraft_LandingGear_NOSE_GEAR_MASS, Aircraft_LandingGear_NOSE_GEAR_MASS_SCALER,
       d_LandingGear_NOSE_GEAR_MASS__LandingGear_NOSE_GEAR_MASS_SCALER);
   (Aircraft_LandingGear_NOSE_GEAR_MASS, Aircraft_Design_GROSS_MASS,
       d_LandingGear_NOSE_GEAR_MASS__Design_GROSS_MASS)].

(** Inputs, outputs and declared partials: /repo/aviary/subsystems/mass/flops_based/landing_gear.py L192-220 *)
Definition AltLandingGearMass (op : options) : comp := {|
  c_ins := [Aircraft_LandingGear_MAIN_GEAR_OLEO_LENGTH;
            Aircraft_LandingGear_MAIN_GEAR_MASS_SCALER;
            Aircraft_LandingGear_NOSE_GEAR_OLEO_LENGTH;
            Aircraft_LandingGear_NOSE_GEAR_MASS_SCALER;
            Aircraft_Design_GROSS_MASS];
  c_outs := [Aircraft_LandingGear_MAIN_GEAR_MASS;
             Aircraft_LandingGear_NOSE_GEAR_MASS];
  c_decl := [(Aircraft_LandingGear_MAIN_GEAR_MASS, Aircraft_LandingGear_MAIN_GEAR_OLEO_LENGTH, 0);
             (Aircraft_LandingGear_MAIN_GEAR_MASS, Aircraft_LandingGear_NOSE_GEAR_OLEO_LENGTH, 0);
             (Aircraft_LandingGear_MAIN_GEAR_MASS, Aircraft_LandingGear_MAIN_GEAR_MASS_SCALER, 0);
             (Aircraft_LandingGear_MAIN_GEAR_MASS, Aircraft_Design_GROSS_MASS, 0);
             (Aircraft_LandingGear_NOSE_GEAR_MASS, Aircraft_LandingGear_MAIN_GEAR_OLEO_LENGTH, 0);
             (Aircraft_LandingGear_NOSE_GEAR_MASS, Aircraft_LandingGear_NOSE_GEAR_OLEO_LENGTH, 0);
             (Aircraft_LandingGear_NOSE_GEAR_MASS, Aircraft_LandingGear_NOSE_GEAR_MASS_SCALER, 0);
             (Aircraft_LandingGear_NOSE_GEAR_MASS, Aircraft_Design_GROSS_MASS, 0)];
  c_run := AltLandingGearMass_compute op; c_jac := AltLandingGearMass_partials op |}.

(** LandingTakeoffMassRatio.compute, /repo/aviary/subsystems/mass/flops_based/landing_mass.py L20-29 *)
Definition LandingTakeoffMassRatio_compute (op : options) (e : env) : list (string * R) :=
  let cruise_mach := e Aircraft_Design_CRUISE_MACH in  (* L21 *)
  let des_range := e Aircraft_Design_RANGE in  (* L22 *)
  let cruise_factor := 5 / 100000 / (1 + exp (- 1000 * (cruise_mach - 1))) + 4 / 100000 in  (* L27 *)
  let o_Design_LANDING_TO_TAKEOFF_MASS_RATIO := 1 - cruise_factor * des_range in  (* L29 *)
  [(Aircraft_Design_LANDING_TO_TAKEOFF_MASS_RATIO, o_Design_LANDING_TO_TAKEOFF_MASS_RATIO)].

(** LandingTakeoffMassRatio.compute_partials, /repo/aviary/subsystems/mass/flops_based/landing_mass.py L31-42 *)
Definition LandingTakeoffMassRatio_partials (op : options) (e : env) : list (string * string * R) :=
  let cruise_mach := e Aircraft_Design_CRUISE_MACH in  (* L32 *)
  let des_range := e Aircraft_Design_RANGE in  (* L33 *)
  let den := 1 + exp (- 1000 * (cruise_mach - 1)) in  (* L35 *)
  let cruise_factor := 5 / 100000 / den + 4 / 100000 in  (* L36 *)
  let dfact_dmach := 5 / 100 / den ^ 2 * exp (- 1000 * (cruise_mach - 1)) in  (* L37 *)
  let d_Design_LANDING_TO_TAKEOFF_MASS_RATIO__Design_RANGE := - cruise_factor in  (* L39 *)
  let d_Design_LANDING_TO_TAKEOFF_MASS_RATIO__Design_CRUISE_MACH := - des_range * dfact_dmach in  (* L40 *)
  [(Aircraft_Design_LANDING_TO_TAKEOFF_MASS_RATIO, Aircraft_Design_RANGE,
      d_Design_LANDING_TO_TAKEOFF_MASS_RATIO__Design_RANGE);
   (Aircraft_Design_LANDING_TO_TAKEOFF_MASS_RATIO, Aircraft_Design_CRUISE_MACH,
       d_Design_LANDING_TO_TAKEOFF_MASS_RATIO__Design_CRUISE_MACH)].

(** Inputs, outputs and declared partials: /repo/aviary/subsystems/mass/flops_based/landing_mass.py L11-18 *)
Definition LandingTakeoffMassRatio (op : options) : comp := {|
  c_ins := [Aircraft_Design_CRUISE_MACH;
            Aircraft_Design_RANGE];
  c_outs := [Aircraft_Design_LANDING_TO_TAKEOFF_MASS_RATIO];
  c_decl := [(Aircraft_Design_LANDING_TO_TAKEOFF_MASS_RATIO, Aircraft_Design_CRUISE_MACH, 0);
             (Aircraft_Design_LANDING_TO_TAKEOFF_MASS_RATIO, Aircraft_Design_RANGE, 0)];
  c_run := LandingTakeoffMassRatio_compute op; c_jac := LandingTakeoffMassRatio_partials op |}.

(** LandingMass.compute, /repo/aviary/subsystems/mass/flops_based/landing_mass.py L57-61 *)
Definition LandingMass_compute (op : options) (e : env) : list (string * R) :=
  let gross_mass := e Aircraft_Design_GROSS_MASS in  (* L58 *)
  let landing_to_takeoff_mass_ratio := e Aircraft_Design_LANDING_TO_TAKEOFF_MASS_RATIO in  (* L59 *)
  let o_Design_TOUCHDOWN_MASS_MAX := gross_mass * landing_to_takeoff_mass_ratio in  (* L61 *)
  [(Aircraft_Design_TOUCHDOWN_MASS_MAX, o_Design_TOUCHDOWN_MASS_MAX)].

(** LandingMass.compute_partials, /repo/aviary/subsystems/mass/flops_based/landing_mass.py L63-73 *)
Definition LandingMass_partials (op : options) (e : env) : list (string * string * R) :=
  let gross_mass := e Aircraft_Design_GROSS_MASS in  (* L64 *)
  let landing_to_takeoff_mass_ratio := e Aircraft_Design_LANDING_TO_TAKEOFF_MASS_RATIO in  (* L65 *)
  let d_Design_TOUCHDOWN_MASS_MAX__Design_GROSS_MASS := landing_to_takeoff_mass_ratio in  (* L67 *)
  let d_Design_TOUCHDOWN_MASS_MAX__Design_LANDING_TO_TAKEOFF_MASS_RATIO := gross_mass in  (* L71 *)
  [(Aircraft_Design_TOUCHDOWN_MASS_MAX, Aircraft_Design_GROSS_MASS, d_Design_TOUCHDOWN_MASS_MAX__Design_GROSS_MASS);
   (Aircraft_Design_TOUCHDOWN_MASS_MAX, Aircraft_Design_LANDING_TO_TAKEOFF_MASS_RATIO,
       d_Design_TOUCHDOWN_MASS_MAX__Design_LANDING_TO_TAKEOFF_MASS_RATIO)].

(** Inputs, outputs and declared partials: /repo/aviary/subsystems/mass/flops_based/landing_mass.py L48-55 *)
Definition LandingMass (op : options) : comp := {|
  c_ins := [Aircraft_Design_GROSS_MASS;
            Aircraft_Design_LANDING_TO_TAKEOFF_MASS_RATIO];
  c_outs := [Aircraft_Design_TOUCHDOWN_MASS_MAX];
  c_decl := [(Aircraft_Design_TOUCHDOWN_MASS_MAX, Aircraft_Design_GROSS_MASS, 0);
             (Aircraft_Design_TOUCHDOWN_MASS_MAX, Aircraft_Design_LANDING_TO_TAKEOFF_MASS_RATIO, 0)];
  c_run := LandingMass_compute op; c_jac := LandingMass_partials op |}.

(** WingBendingMass.compute, /repo/aviary/subsystems/mass/flops_based/wing_common.py L43-92 *)
Definition WingBendingMass_compute (op : options) (e : env) : list (string * R) :=
  let bt := e Aircraft_Wing_BENDING_MATERIAL_FACTOR in  (* L44 *)
  let ulf := e Aircraft_Wing_ULTIMATE_LOAD_FACTOR in  (* L45 *)
  let span := e Aircraft_Wing_SPAN in  (* L46 *)
  let comp_frac := e Aircraft_Wing_COMPOSITE_FRACTION in  (* L47 *)
  let faert := e Aircraft_Wing_AEROELASTIC_TAILORING_FACTOR in  (* L48 *)
  let varswp := e Aircraft_Wing_VAR_SWEEP_MASS_PENALTY in  (* L49 *)
  let pctl := e Aircraft_Wing_LOAD_FRACTION in  (* L50 *)
  let sweep := e Aircraft_Wing_SWEEP in  (* L51 *)
  let gross_weight := e Aircraft_Design_GROSS_MASS * GRAV_ENGLISH_LBM in  (* L52 *)
  let CAYE := e Aircraft_Wing_ENG_POD_INERTIA_FACTOR in  (* L53 *)
  let scaler := e Aircraft_Wing_BENDING_MATERIAL_MASS_SCALER in  (* L54 *)
  let num_fuse := on op Aircraft_Fuselage_NUM_FUSELAGES in  (* L56 *)
  let W2 := e Aircraft_Wing_SHEAR_CONTROL_MASS / e Aircraft_Wing_SHEAR_CONTROL_MASS_SCALER * GRAV_ENGLISH_LBM in  (* L60 *)
  let W3 := e Aircraft_Wing_MISC_MASS / e Aircraft_Wing_MISC_MASS_SCALER * GRAV_ENGLISH_LBM in  (* L65 *)
  let vfact := 1 + varswp * (96 / 100 / cos (PI / 180 * sweep) - 1) in  (* L71 *)
  let cayf := if ltb 1 num_fuse then 5 / 10 else 1 in  (* L72 *)
  let W1NIR := 88 / 10 * bt * (1 + (625 / 100 / span) ** (5 / 10)) * ulf * span * (1 - 4 / 10 * comp_frac) * (1 - 1 /
      10 * faert) * cayf * vfact * pctl * (1 / 1000000) in  (* L74 *)
  let o_Wing_BENDING_MATERIAL_MASS := ((gross_weight * CAYE * W1NIR + W2 + W3) / (1 + W1NIR) - W2 - W3) * scaler /
      GRAV_ENGLISH_LBM in  (* L88 *)
  [(Aircraft_Wing_BENDING_MATERIAL_MASS, o_Wing_BENDING_MATERIAL_MASS)].

(** WingBendingMass.compute_partials, /repo/aviary/subsystems/mass/flops_based/wing_common.py L94-219 *)
Definition WingBendingMass_partials (op : options) (e : env) : list (string * string * R) :=
  let bt := e Aircraft_Wing_BENDING_MATERIAL_FACTOR in  (* L95 *)
  let ulf := e Aircraft_Wing_ULTIMATE_LOAD_FACTOR in  (* L96 *)
  let span := e Aircraft_Wing_SPAN in  (* L97 *)
  let comp_frac := e Aircraft_Wing_COMPOSITE_FRACTION in  (* L98 *)
  let faert := e Aircraft_Wing_AEROELASTIC_TAILORING_FACTOR in  (* L99 *)
  let varswp := e Aircraft_Wing_VAR_SWEEP_MASS_PENALTY in  (* L100 *)
  let pctl := e Aircraft_Wing_LOAD_FRACTION in  (* L101 *)
  let sweep := e Aircraft_Wing_SWEEP in  (* L102 *)
  let gross_weight := e Aircraft_Design_GROSS_MASS * GRAV_ENGLISH_LBM in  (* L103 *)
  let CAYE := e Aircraft_Wing_ENG_POD_INERTIA_FACTOR in  (* L104 *)
  let W2 := e Aircraft_Wing_SHEAR_CONTROL_MASS * GRAV_ENGLISH_LBM in  (* L105 *)
  let W3 := e Aircraft_Wing_MISC_MASS * GRAV_ENGLISH_LBM in  (* L106 *)
  let W2scale := e Aircraft_Wing_SHEAR_CONTROL_MASS_SCALER in  (* L107 *)
  let W3scale := e Aircraft_Wing_MISC_MASS_SCALER in  (* L108 *)
  let scaler := e Aircraft_Wing_BENDING_MATERIAL_MASS_SCALER in  (* L109 *)
  let num_fuse := on op Aircraft_Fuselage_NUM_FUSELAGES in  (* L111 *)
  let deg2rad := PI / 180 in  (* L113 *)
  let term := 96 / 100 / cos (deg2rad * sweep) in  (* L114 *)
  let vfact := 1 + varswp * (term - 1) in  (* L115 *)
  let dvfact_varswp := term - 1 in  (* L116 *)
  let dvfact_sweep := varswp * deg2rad * term * tan (deg2rad * sweep) in  (* L117 *)
  let cayf := if ltb 1 num_fuse then 5 / 10 else 1 in  (* L118 *)
  let fact0 := (625 / 100 / span) ** (5 / 10) in  (* L120 *)
  let fact1 := 1 + fact0 in  (* L121 *)
  let fact2 := 1 - 4 / 10 * comp_frac in  (* L122 *)
  let fact3 := 1 - 1 / 10 * faert in  (* L123 *)
  let W1NIR := 88 / 10 * bt * fact1 * ulf * span * fact2 * fact3 * cayf * vfact * pctl * (1 / 1000000) in  (* L124 *)
  let dW1NIR_bt := 88 / 10 * fact1 * ulf * span * fact2 * fact3 * cayf * vfact * pctl * (1 / 1000000) in  (* L125 *)
  let dW1NIR_ulf := 88 / 10 * bt * fact1 * span * fact2 * fact3 * cayf * vfact * pctl * (1 / 1000000) in  (* L126 *)
  let dW1NIR_pctl := 88 / 10 * bt * fact1 * ulf * span * fact2 * fact3 * cayf * vfact * (1 / 1000000) in  (* L127 *)
  let dW1NIR_compfrac := - (88 / 10) * bt * fact1 * ulf * span * (4 / 10) * fact3 * cayf * vfact * pctl * (1 /
      1000000) in  (* L128 *)
  let dW1NIR_faert := - (88 / 10) * bt * fact1 * ulf * span * fact2 * (1 / 10) * cayf * vfact * pctl * (1 / 1000000)
      in  (* L131 *)
  let dW1NIR_varswp := 88 / 10 * bt * fact1 * ulf * span * fact2 * fact3 * cayf * dvfact_varswp * pctl * (1 / 1000000)
      in  (* L134 *)
  let dW1NIR_sweep := 88 / 10 * bt * fact1 * ulf * span * fact2 * fact3 * cayf * dvfact_sweep * pctl * (1 / 1000000)
      in  (* L137 *)
  let dfact1_span := - 5 / 10 * (625 / 100) / (fact0 * span * span) in  (* L141 *)
  let dW1NIR_span := 88 / 10 * bt * (dfact1_span * span + fact1) * ulf * fact2 * fact3 * cayf * vfact * pctl * (1 /
      1000000) in  (* L142 *)
  let fact1 := gross_weight * CAYE * W1NIR + W2 / W2scale + W3 / W3scale in  (* L155 *)
  let fact2 := 1 / (1 + W1NIR) in  (* L156 *)
  let dbend_w1nir := scaler * (gross_weight * CAYE * fact2 - fact1 * fact2 ^ 2) in  (* L157 *)
  let d_Wing_BENDING_MATERIAL_MASS__Design_GROSS_MASS := CAYE * W1NIR * fact2 * scaler in  (* L159 *)
  let d_Wing_BENDING_MATERIAL_MASS__Wing_ENG_POD_INERTIA_FACTOR := gross_weight * W1NIR * fact2 * scaler /
      GRAV_ENGLISH_LBM in  (* L163 *)
  let d_Wing_BENDING_MATERIAL_MASS__Wing_SHEAR_CONTROL_MASS := (fact2 - 1) * scaler / W2scale in  (* L167 *)
  let d_Wing_BENDING_MATERIAL_MASS__Wing_SHEAR_CONTROL_MASS_SCALER := - (fact2 - 1) * scaler * W2 / W2scale ^ 2 /
      GRAV_ENGLISH_LBM in  (* L171 *)
  let d_Wing_BENDING_MATERIAL_MASS__Wing_MISC_MASS := (fact2 - 1) * scaler / W3scale in  (* L175 *)
  let d_Wing_BENDING_MATERIAL_MASS__Wing_MISC_MASS_SCALER := - (fact2 - 1) * scaler * W3 / W3scale ^ 2 /
      GRAV_ENGLISH_LBM in  (* L179 *)
  let d_Wing_BENDING_MATERIAL_MASS__Wing_BENDING_MATERIAL_MASS_SCALER := (fact1 * fact2 - W2 / W2scale - W3 / W3scale)
      / GRAV_ENGLISH_LBM in  (* L183 *)
  let d_Wing_BENDING_MATERIAL_MASS__Wing_BENDING_MATERIAL_FACTOR := dbend_w1nir * dW1NIR_bt / GRAV_ENGLISH_LBM in  (* L188 *)
  let d_Wing_BENDING_MATERIAL_MASS__Wing_ULTIMATE_LOAD_FACTOR := dbend_w1nir * dW1NIR_ulf / GRAV_ENGLISH_LBM in  (* L192 *)
  let d_Wing_BENDING_MATERIAL_MASS__Wing_LOAD_FRACTION := dbend_w1nir * dW1NIR_pctl / GRAV_ENGLISH_LBM in  (* L196 *)
  let d_Wing_BENDING_MATERIAL_MASS__Wing_COMPOSITE_FRACTION := dbend_w1nir * dW1NIR_compfrac / GRAV_ENGLISH_LBM in  (* L200 *)
  let d_Wing_BENDING_MATERIAL_MASS__Wing_AEROELASTIC_TAILORING_FACTOR := dbend_w1nir * dW1NIR_faert / GRAV_ENGLISH_LBM
      in  (* L204 *)
  let d_Wing_BENDING_MATERIAL_MASS__Wing_VAR_SWEEP_MASS_PENALTY := dbend_w1nir * dW1NIR_varswp / GRAV_ENGLISH_LBM in  (* L209 *)
  let d_Wing_BENDING_MATERIAL_MASS__Wing_SWEEP := dbend_w1nir * dW1NIR_sweep / GRAV_ENGLISH_LBM in  (* L213 *)
  let d_Wing_BENDING_MATERIAL_MASS__Wing_SPAN := dbend_w1nir * dW1NIR_span / GRAV_ENGLISH_LBM in  (* L217 *)
  [(Aircraft_Wing_BENDING_MATERIAL_MASS, Aircraft_Design_GROSS_MASS, d_Wing_BENDING_MATERIAL_MASS__Design_GROSS_MASS);
   (Aircraft_Wing_BENDING_MATERIAL_MASS, Aircraft_Wing_ENG_POD_INERTIA_FACTOR,
       d_Wing_BENDING_MATERIAL_MASS__Wing_ENG_POD_INERTIA_FACTOR);
   (Aircraft_Wing_BENDING_MATERIAL_MASS, Aircraft_Wing_SHEAR_CONTROL_MASS,
       d_Wing_BENDING_MATERIAL_MASS__Wing_SHEAR_CONTROL_MASS);
   (Aircraft_Wing_BENDING_MATERIAL_MASS, Aircraft_Wing_SHEAR_CONTROL_MASS_SCALER,
       d_Wing_BENDING_MATERIAL_MASS__Wing_SHEAR_CONTROL_MASS_SCALER);
   (Aircraft_Wing_BENDING_MATERIAL_MASS, Aircraft_Wing_MISC_MASS, d_Wing_BENDING_MATERIAL_MASS__Wing_MISC_MASS);
   (Aircraft_Wing_BENDING_MATERIAL_MASS, Aircraft_Wing_MISC_MASS_SCALER,
       d_Wing_BENDING_MATERIAL_MASS__Wing_MISC_MASS_SCALER);
   (Aircraft_Wing_BENDING_MATERIAL_MASS, Aircraft_Wing_BENDING_MATERIAL_MASS_SCALER,
       d_Wing_BENDING_MATERIAL_MASS__Wing_BENDING_MATERIAL_MASS_SCALER);
   (Aircraft_Wing_BENDING_MATERIAL_MASS, Aircraft_Wing_BENDING_MATERIAL_FACTOR,
       d_Wing_BENDING_MATERIAL_MASS__Wing_BENDING_MATERIAL_FACTOR);
   (Aircraft_Wing_BENDING_MATERIAL_MASS, Aircraft_Wing_ULTIMATE_LOAD_FACTOR,
       d_Wing_BENDING_MATERIAL_MASS__Wing_ULTIMATE_LOAD_FACTOR);
   (Aircraft_Wing_BENDING_MATERIAL_MASS, Aircraft_Wing_LOAD_FRACTION,
       d_Wing_BENDING_MATERIAL_MASS__Wing_LOAD_FRACTION);
   (Aircraft_Wing_BENDING_MATERIAL_MASS, Aircraft_Wing_COMPOSITE_FRACTION,
       d_Wing_BENDING_MATERIAL_MASS__Wing_COMPOSITE_FRACTION);
   (Aircraft_Wing_BENDING_MATERIAL_MASS, Aircraft_Wing_AEROELASTIC_TAILORING_FACTOR,
       d_Wing_BENDING_MATERIAL_MASS__Wing_AEROELASTIC_TAILORING_FACTOR);
   (Aircraft_Wing_BENDING_MATERIAL_MASS, Aircraft_Wing_VAR_SWEEP_MASS_PENALTY,
       d_Wing_BENDING_MATERIAL_MASS__Wing_VAR_SWEEP_MASS_PENALTY);
   (Aircraft_Wing_BENDING_MATERIAL_MASS, Aircraft_Wing_SWEEP, d_Wing_BENDING_MATERIAL_MASS__Wing_SWEEP);
   (Aircraft_Wing_BENDING_MATERIAL_MASS, Aircraft_Wing_SPAN, d_Wing_BENDING_MATERIAL_MASS__Wing_SPAN)].

(** Inputs, outputs and declared partials: /repo/aviary/subsystems/mass/flops_based/wing_common.py L18-41 *)
Definition WingBendingMass (op : options) : comp := {|
  c_ins := [Aircraft_Design_GROSS_MASS;
            Aircraft_Wing_AEROELASTIC_TAILORING_FACTOR;
            Aircraft_Wing_BENDING_MATERIAL_FACTOR;
            Aircraft_Wing_BENDING_MATERIAL_MASS_SCALER;
            Aircraft_Wing_COMPOSITE_FRACTION;
            Aircraft_Wing_ENG_POD_INERTIA_FACTOR;
            Aircraft_Wing_LOAD_FRACTION;
            Aircraft_Wing_MISC_MASS;
            Aircraft_Wing_MISC_MASS_SCALER;
            Aircraft_Wing_SHEAR_CONTROL_MASS;
            Aircraft_Wing_SHEAR_CONTROL_MASS_SCALER;
            Aircraft_Wing_SPAN;
            Aircraft_Wing_SWEEP;
            Aircraft_Wing_ULTIMATE_LOAD_FACTOR;
            Aircraft_Wing_VAR_SWEEP_MASS_PENALTY];
  c_outs := [Aircraft_Wing_BENDING_MATERIAL_MASS];
  c_decl := [(Aircraft_Wing_BENDING_MATERIAL_MASS, Aircraft_Design_GROSS_MASS, 0);
             (Aircraft_Wing_BENDING_MATERIAL_MASS, Aircraft_Wing_AEROELASTIC_TAILORING_FACTOR, 0);
             (Aircraft_Wing_BENDING_MATERIAL_MASS, Aircraft_Wing_BENDING_MATERIAL_FACTOR, 0);
             (Aircraft_Wing_BENDING_MATERIAL_MASS, Aircraft_Wing_BENDING_MATERIAL_MASS_SCALER, 0);
             (Aircraft_Wing_BENDING_MATERIAL_MASS, Aircraft_Wing_COMPOSITE_FRACTION, 0);
             (Aircraft_Wing_BENDING_MATERIAL_MASS, Aircraft_Wing_ENG_POD_INERTIA_FACTOR, 0);
             (Aircraft_Wing_BENDING_MATERIAL_MASS, Aircraft_Wing_LOAD_FRACTION, 0);
             (Aircraft_Wing_BENDING_MATERIAL_MASS, Aircraft_Wing_MISC_MASS, 0);
             (Aircraft_Wing_BENDING_MATERIAL_MASS, Aircraft_Wing_MISC_MASS_SCALER, 0);
             (Aircraft_Wing_BENDING_MATERIAL_MASS, Aircraft_Wing_SHEAR_CONTROL_MASS, 0);
             (Aircraft_Wing_BENDING_MATERIAL_MASS, Aircraft_Wing_SHEAR_CONTROL_MASS_SCALER, 0);
             (Aircraft_Wing_BENDING_MATERIAL_MASS, Aircraft_Wing_SPAN, 0);
             (Aircraft_Wing_BENDING_MATERIAL_MASS, Aircraft_Wing_SWEEP, 0);
             (Aircraft_Wing_BENDING_MATERIAL_MASS, Aircraft_Wing_ULTIMATE_LOAD_FACTOR, 0);
             (Aircraft_Wing_BENDING_MATERIAL_MASS, Aircraft_Wing_VAR_SWEEP_MASS_PENALTY, 0)];
  c_run := WingBendingMass_compute op; c_jac := WingBendingMass_partials op |}.

(** WingShearControlMass.compute, /repo/aviary/subsystems/mass/flops_based/wing_common.py L253-266 *)
Definition WingShearControlMass_compute (op : options) (e : env) : list (string * R) :=
  let comp_frac := e Aircraft_Wing_COMPOSITE_FRACTION in  (* L254 *)
  let gross_weight := e Aircraft_Design_GROSS_MASS * GRAV_ENGLISH_LBM in  (* L255 *)
  let ctrl_area := e Aircraft_Wing_CONTROL_SURFACE_AREA in  (* L256 *)
  let scaler := e Aircraft_Wing_SHEAR_CONTROL_MASS_SCALER in  (* L257 *)
  let o_Wing_SHEAR_CONTROL_MASS := 68 / 100 * (1 - 17 / 100 * comp_frac) * ctrl_area ** (34 / 100) * gross_weight **
      (6 / 10) * scaler / GRAV_ENGLISH_LBM in  (* L259 *)
  [(Aircraft_Wing_SHEAR_CONTROL_MASS, o_Wing_SHEAR_CONTROL_MASS)].

(** WingShearControlMass.compute_partials, /repo/aviary/subsystems/mass/flops_based/wing_common.py L268-299 *)
Definition WingShearControlMass_partials (op : options) (e : env) : list (string * string * R) :=
  let comp_frac := e Aircraft_Wing_COMPOSITE_FRACTION in  (* L269 *)
  let gross_weight := e Aircraft_Design_GROSS_MASS * GRAV_ENGLISH_LBM in  (* L270 *)
  let ctrl_area := e Aircraft_Wing_CONTROL_SURFACE_AREA in  (* L271 *)
  let scaler := e Aircraft_Wing_SHEAR_CONTROL_MASS_SCALER in  (* L272 *)
  let comp_frac_term := 68 / 100 * (1 - 17 / 100 * comp_frac) in  (* L274 *)
  let d_Wing_SHEAR_CONTROL_MASS__Wing_COMPOSITE_FRACTION := - 17 / 100 * (68 / 100) * ctrl_area ** (34 / 100) *
      gross_weight ** (6 / 10) * scaler / GRAV_ENGLISH_LBM in  (* L276 *)
  let d_Wing_SHEAR_CONTROL_MASS__Wing_CONTROL_SURFACE_AREA := comp_frac_term * (34 / 100) * ctrl_area ** (34 / 100 -
      1) * gross_weight ** (6 / 10) * scaler / GRAV_ENGLISH_LBM in  (* L280 *)
  let d_Wing_SHEAR_CONTROL_MASS__Design_GROSS_MASS := comp_frac_term * ctrl_area ** (34 / 100) * (6 / 10) *
      gross_weight ** (6 / 10 - 1) * scaler in  (* L289 *)
  let d_Wing_SHEAR_CONTROL_MASS__Wing_SHEAR_CONTROL_MASS_SCALER := 68 / 100 * (1 - 17 / 100 * comp_frac) * ctrl_area
      ** (34 / 100) * gross_weight ** (6 / 10) / GRAV_ENGLISH_LBM in  (* L293 *)
  [(Aircraft_Wing_SHEAR_CONTROL_MASS, Aircraft_Wing_COMPOSITE_FRACTION,
      d_Wing_SHEAR_CONTROL_MASS__Wing_COMPOSITE_FRACTION);
   (Aircraft_Wing_SHEAR_CONTROL_MASS, Aircraft_Wing_CONTROL_SURFACE_AREA,
       d_Wing_SHEAR_CONTROL_MASS__Wing_CONTROL_SURFACE_AREA);
   (Aircraft_Wing_SHEAR_CONTROL_MASS, Aircraft_Design_GROSS_MASS, d_Wing_SHEAR_CONTROL_MASS__Design_GROSS_MASS);
   (Aircraft_Wing_SHEAR_CONTROL_MASS, Aircraft_Wing_SHEAR_CONTROL_MASS_SCALER,
       d_Wing_SHEAR_CONTROL_MASS__Wing_SHEAR_CONTROL_MASS_SCALER)].

(** Inputs, outputs and declared partials: /repo/aviary/subsystems/mass/flops_based/wing_common.py L232-251 *)
Definition WingShearControlMass (op : options) : comp := {|
  c_ins := [Aircraft_Wing_COMPOSITE_FRACTION;
            Aircraft_Wing_CONTROL_SURFACE_AREA;
            Aircraft_Design_GROSS_MASS;
            Aircraft_Wing_SHEAR_CONTROL_MASS_SCALER];
  c_outs := [Aircraft_Wing_SHEAR_CONTROL_MASS];
  c_decl := [(Aircraft_Wing_SHEAR_CONTROL_MASS, Aircraft_Wing_COMPOSITE_FRACTION, 0);
             (Aircraft_Wing_SHEAR_CONTROL_MASS, Aircraft_Wing_CONTROL_SURFACE_AREA, 0);
             (Aircraft_Wing_SHEAR_CONTROL_MASS, Aircraft_Design_GROSS_MASS, 0);
             (Aircraft_Wing_SHEAR_CONTROL_MASS, Aircraft_Wing_SHEAR_CONTROL_MASS_SCALER, 0)];
  c_run := WingShearControlMass_compute op; c_jac := WingShearControlMass_partials op |}.

(** WingMiscMass.compute, /repo/aviary/subsystems/mass/flops_based/wing_common.py L336-343 *)
Definition WingMiscMass_compute (op : options) (e : env) : list (string * R) :=
  let comp_frac := e Aircraft_Wing_COMPOSITE_FRACTION in  (* L337 *)
  let area := e Aircraft_Wing_AREA in  (* L338 *)
  let scaler := e Aircraft_Wing_MISC_MASS_SCALER in  (* L339 *)
  let o_Wing_MISC_MASS := 35 / 1000 * (1 - 3 / 10 * comp_frac) * area ** (15 / 10) * scaler / GRAV_ENGLISH_LBM in  (* L341 *)
  [(Aircraft_Wing_MISC_MASS, o_Wing_MISC_MASS)].

(** WingMiscMass.compute_partials, /repo/aviary/subsystems/mass/flops_based/wing_common.py L345-363 *)
Definition WingMiscMass_partials (op : options) (e : env) : list (string * string * R) :=
  let comp_frac := e Aircraft_Wing_COMPOSITE_FRACTION in  (* L346 *)
  let area := e Aircraft_Wing_AREA in  (* L347 *)
  let scaler := e Aircraft_Wing_MISC_MASS_SCALER in  (* L348 *)
  let d_Wing_MISC_MASS__Wing_COMPOSITE_FRACTION := - 3 / 10 * (35 / 1000) * area ** (15 / 10) * scaler /
      GRAV_ENGLISH_LBM in  (* L350 *)
  let d_Wing_MISC_MASS__Wing_AREA := 35 / 1000 * (1 - 3 / 10 * comp_frac) * (15 / 10) * area ** (15 / 10 - 1) * scaler
      / GRAV_ENGLISH_LBM in  (* L353 *)
  let d_Wing_MISC_MASS__Wing_MISC_MASS_SCALER := 35 / 1000 * (1 - 3 / 10 * comp_frac) * area ** (15 / 10) /
      GRAV_ENGLISH_LBM in  (* L361 *)
  [(Aircraft_Wing_MISC_MASS, Aircraft_Wing_COMPOSITE_FRACTION, d_Wing_MISC_MASS__Wing_COMPOSITE_FRACTION);
   (Aircraft_Wing_MISC_MASS, Aircraft_Wing_AREA, d_Wing_MISC_MASS__Wing_AREA);
   (Aircraft_Wing_MISC_MASS, Aircraft_Wing_MISC_MASS_SCALER, d_Wing_MISC_MASS__Wing_MISC_MASS_SCALER)].

(** Inputs, outputs and declared partials: /repo/aviary/subsystems/mass/flops_based/wing_common.py L312-334 *)
Definition WingMiscMass (op : options) : comp := {|
  c_ins := [Aircraft_Wing_COMPOSITE_FRACTION;
            Aircraft_Wing_AREA;
            Aircraft_Wing_MISC_MASS_SCALER];
  c_outs := [Aircraft_Wing_MISC_MASS];
  c_decl := [(Aircraft_Wing_MISC_MASS, Aircraft_Wing_COMPOSITE_FRACTION, 0);
             (Aircraft_Wing_MISC_MASS, Aircraft_Wing_MISC_MASS_SCALER, 0);
             (Aircraft_Wing_MISC_MASS, Aircraft_Wing_AREA, 0)];
  c_run := WingMiscMass_compute op; c_jac := WingMiscMass_partials op |}.

(** BWBWingMiscMass.compute, /repo/aviary/subsystems/mass/flops_based/wing_common.py L395-402 *)
Definition BWBWingMiscMass_compute (op : options) (e : env) : list (string * R) :=
  let comp_frac := e Aircraft_Wing_COMPOSITE_FRACTION in  (* L396 *)
  let area := e v_calculated_wing_area in  (* L397 *)
  let scaler := e Aircraft_Wing_MISC_MASS_SCALER in  (* L398 *)
  let o_Wing_MISC_MASS := 35 / 1000 * (1 - 3 / 10 * comp_frac) * area ** (15 / 10) * scaler / GRAV_ENGLISH_LBM in  (* L400 *)
  [(Aircraft_Wing_MISC_MASS, o_Wing_MISC_MASS)].

(** BWBWingMiscMass.compute_partials, /repo/aviary/subsystems/mass/flops_based/wing_common.py L404-422 *)
Definition BWBWingMiscMass_partials (op : options) (e : env) : list (string * string * R) :=
  let comp_frac := e Aircraft_Wing_COMPOSITE_FRACTION in  (* L405 *)
  let area := e v_calculated_wing_area in  (* L406 *)
  let scaler := e Aircraft_Wing_MISC_MASS_SCALER in  (* L407 *)
  let d_Wing_MISC_MASS__Wing_COMPOSITE_FRACTION := - 3 / 10 * (35 / 1000) * area ** (15 / 10) * scaler /
      GRAV_ENGLISH_LBM in  (* L409 *)
  let d_Wing_MISC_MASS__calculated_wing_area := 35 / 1000 * (1 - 3 / 10 * comp_frac) * (15 / 10) * area ** (15 / 10 -
      1) * scaler / GRAV_ENGLISH_LBM in  (* L412 *)
  let d_Wing_MISC_MASS__Wing_MISC_MASS_SCALER := 35 / 1000 * (1 - 3 / 10 * comp_frac) * area ** (15 / 10) /
      GRAV_ENGLISH_LBM in  (* L420 *)
  [(Aircraft_Wing_MISC_MASS, Aircraft_Wing_COMPOSITE_FRACTION, d_Wing_MISC_MASS__Wing_COMPOSITE_FRACTION);
   (Aircraft_Wing_MISC_MASS, v_calculated_wing_area, d_Wing_MISC_MASS__calculated_wing_area);
   (Aircraft_Wing_MISC_MASS, Aircraft_Wing_MISC_MASS_SCALER, d_Wing_MISC_MASS__Wing_MISC_MASS_SCALER)].

(** Inputs, outputs and declared partials: /repo/aviary/subsystems/mass/flops_based/wing_common.py L375-393 *)
Definition BWBWingMiscMass (op : options) : comp := {|
  c_ins := [Aircraft_Wing_COMPOSITE_FRACTION;
            Aircraft_Wing_MISC_MASS_SCALER;
            v_calculated_wing_area];
  c_outs := [Aircraft_Wing_MISC_MASS];
  c_decl := [(Aircraft_Wing_MISC_MASS, Aircraft_Wing_COMPOSITE_FRACTION, 0);
             (Aircraft_Wing_MISC_MASS, Aircraft_Wing_MISC_MASS_SCALER, 0);
             (Aircraft_Wing_MISC_MASS, v_calculated_wing_area, 0)];
  c_run := BWBWingMiscMass_compute op; c_jac := BWBWingMiscMass_partials op |}.

(** WingTotalMass.compute, /repo/aviary/subsystems/mass/flops_based/wing_common.py L440-447 *)
Definition WingTotalMass_compute (op : options) (e : env) : list (string * R) :=
  let m1 := e Aircraft_Wing_BENDING_MATERIAL_MASS in  (* L441 *)
  let m2 := e Aircraft_Wing_SHEAR_CONTROL_MASS in  (* L442 *)
  let m3 := e Aircraft_Wing_MISC_MASS in  (* L443 *)
  let m4 := e Aircraft_Wing_BWB_AFTBODY_MASS in  (* L444 *)
  let m_scaler := e Aircraft_Wing_MASS_SCALER in  (* L445 *)
  let o_Wing_MASS := (m1 + m2 + m3 + m4) * m_scaler in  (* L447 *)
  [(Aircraft_Wing_MASS, o_Wing_MASS)].

(** WingTotalMass.compute_partials, /repo/aviary/subsystems/mass/flops_based/wing_common.py L449-460 *)
Definition WingTotalMass_partials (op : options) (e : env) : list (string * string * R) :=
  let m1 := e Aircraft_Wing_BENDING_MATERIAL_MASS in  (* L450 *)
  let m2 := e Aircraft_Wing_SHEAR_CONTROL_MASS in  (* L451 *)
  let m3 := e Aircraft_Wing_MISC_MASS in  (* L452 *)
  let m4 := e Aircraft_Wing_BWB_AFTBODY_MASS in  (* L453 *)
  let m_scaler := e Aircraft_Wing_MASS_SCALER in  (* L454 *)
  let d_Wing_MASS__Wing_BENDING_MATERIAL_MASS := m_scaler in  (* L456 *)
  let d_Wing_MASS__Wing_SHEAR_CONTROL_MASS := m_scaler in  (* L457 *)
  let d_Wing_MASS__Wing_MISC_MASS := m_scaler in  (* L458 *)
  let d_Wing_MASS__Wing_BWB_AFTBODY_MASS := m_scaler in  (* L459 *)
  let d_Wing_MASS__Wing_MASS_SCALER := m1 + m2 + m3 + m4 in  (* L460 *)
  [(Aircraft_Wing_MASS, Aircraft_Wing_BENDING_MATERIAL_MASS, d_Wing_MASS__Wing_BENDING_MATERIAL_MASS);
   (Aircraft_Wing_MASS, Aircraft_Wing_SHEAR_CONTROL_MASS, d_Wing_MASS__Wing_SHEAR_CONTROL_MASS);
   (Aircraft_Wing_MASS, Aircraft_Wing_MISC_MASS, d_Wing_MASS__Wing_MISC_MASS);
   (Aircraft_Wing_MASS, Aircraft_Wing_BWB_AFTBODY_MASS, d_Wing_MASS__Wing_BWB_AFTBODY_MASS);
   (Aircraft_Wing_MASS, Aircraft_Wing_MASS_SCALER, d_Wing_MASS__Wing_MASS_SCALER)].

(** Inputs, outputs and declared partials: /repo/aviary/subsystems/mass/flops_based/wing_common.py L428-438 *)
Definition WingTotalMass (op : options) : comp := {|
  c_ins := [Aircraft_Wing_BENDING_MATERIAL_MASS;
            Aircraft_Wing_SHEAR_CONTROL_MASS;
            Aircraft_Wing_MISC_MASS;
            Aircraft_Wing_BWB_AFTBODY_MASS;
            Aircraft_Wing_MASS_SCALER];
  c_outs := [Aircraft_Wing_MASS];
  c_decl := [(Aircraft_Wing_MASS, Aircraft_Wing_BENDING_MATERIAL_MASS, 0);
             (Aircraft_Wing_MASS, Aircraft_Wing_SHEAR_CONTROL_MASS, 0);
             (Aircraft_Wing_MASS, Aircraft_Wing_MISC_MASS, 0);
             (Aircraft_Wing_MASS, Aircraft_Wing_BWB_AFTBODY_MASS, 0);
             (Aircraft_Wing_MASS, Aircraft_Wing_MASS_SCALER, 0)];
  c_run := WingTotalMass_compute op; c_jac := WingTotalMass_partials op |}.
