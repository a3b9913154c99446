(** GASP based masses of systems, equipment, operating items and landing gear, /repo/aviary/subsystems/mass/gasp_based.

    Options that hold one value per engine type (NUM_ENGINES, REFERENCE_DIAMETER and the like) have one element.  A
    local variable that is bound on one branch of an if only has the value 0 on the other branch, where Python raises
    UnboundLocalError when it is read; theorems exclude these runs.  int(x) is floorR x (x is not negative here).

    Generated by tools/py2coq.py from the source text; see the header of that file for the rules.  Decimal
    literals are exact and numbers are real numbers. *)
From Coq Require Import Reals.
From Verif Require Import Base Comp MathModel CompMore CompFun.
Open Scope list_scope.
Open Scope string_scope.
Local Open Scope R_scope.

(** ** Variable names, /repo/aviary/variable_info/variables.py *)
Definition Aircraft_APU_MASS := "aircraft:apu:mass".
Definition Aircraft_AirConditioning_MASS := "aircraft:air_conditioning:mass".
Definition Aircraft_AirConditioning_MASS_COEFFICIENT := "aircraft:air_conditioning:mass_coefficient".
Definition Aircraft_AntiIcing_MASS := "aircraft:anti_icing:mass".
Definition Aircraft_Avionics_MASS := "aircraft:avionics:mass".
Definition Aircraft_Controls_COCKPIT_CONTROL_MASS := "aircraft:controls:cockpit_control_mass".
Definition Aircraft_Controls_COCKPIT_CONTROL_MASS_SCALER := "aircraft:controls:cockpit_control_mass_scaler".
Definition Aircraft_Controls_CONTROL_MASS_INCREMENT := "aircraft:controls:control_mass_increment".
Definition Aircraft_Controls_MASS := "aircraft:controls:mass".
Definition Aircraft_Controls_STABILITY_AUGMENTATION_SYSTEM_MASS :=
    "aircraft:controls:stability_augmentation_system_mass".
Definition Aircraft_Controls_STABILITY_AUGMENTATION_SYSTEM_MASS_SCALER :=
    "aircraft:controls:stability_augmentation_system_mass_scaler".
Definition Aircraft_Controls_STABILITY_AUGMENTATION_SYSTEM_REFERENCE_MASS :=
    "aircraft:controls:stability_augmentation_system_reference_mass".
Definition Aircraft_CrewPayload_CABIN_CREW_MASS := "aircraft:crew_and_payload:cabin_crew_mass".
Definition Aircraft_CrewPayload_CARGO_CONTAINER_MASS := "aircraft:crew_and_payload:cargo_container_mass".
Definition Aircraft_CrewPayload_CATERING_ITEMS_MASS_PER_PASSENGER :=
    "aircraft:crew_and_payload:catering_items_mass_per_passenger".
Definition Aircraft_CrewPayload_Design_NUM_PASSENGERS := "aircraft:crew_and_payload:design:num_passengers".
Definition Aircraft_CrewPayload_FLIGHT_CREW_MASS := "aircraft:crew_and_payload:flight_crew_mass".
Definition Aircraft_CrewPayload_PASSENGER_SERVICE_MASS := "aircraft:crew_and_payload:passenger_service_mass".
Definition Aircraft_CrewPayload_PASSENGER_SERVICE_MASS_PER_PASSENGER :=
    "aircraft:crew_and_payload:passenger_service_mass_per_passenger".
Definition Aircraft_CrewPayload_ULD_MASS_PER_PASSENGER := "aircraft:crew_and_payload:uld_mass_per_passenger".
Definition Aircraft_CrewPayload_WATER_MASS_PER_OCCUPANT := "aircraft:crew_and_payload:water_mass_per_occupant".
Definition Aircraft_Design_COCKPIT_CONTROL_MASS_COEFFICIENT := "aircraft:design:cockpit_control_mass_coefficient".
Definition Aircraft_Design_EMERGENCY_EQUIPMENT_MASS := "aircraft:design:emergency_equipment_mass".
Definition Aircraft_Design_GROSS_MASS := "aircraft:design:gross_mass".
Definition Aircraft_Design_LANDING_TO_TAKEOFF_MASS_RATIO := "aircraft:design:landing_to_takeoff_mass_ratio".
Definition Aircraft_Design_SMOOTH_MASS_DISCONTINUITIES := "aircraft:design:smooth_mass_discontinuities".
Definition Aircraft_Design_TOUCHDOWN_MASS_MAX := "aircraft:design:touchdown_mass_max".
Definition Aircraft_Electrical_MASS := "aircraft:electrical:mass".
Definition Aircraft_Electrical_SYSTEM_MASS_PER_PASSENGER := "aircraft:electrical:system_mass_per_passenger".
Definition Aircraft_Engine_NUM_ENGINES := "aircraft:engine:num_engines".
Definition Aircraft_Engine_SCALED_SLS_THRUST := "aircraft:engine:scaled_sls_thrust".
Definition Aircraft_Engine_TYPE := "aircraft:engine:type".
Definition Aircraft_Furnishings_MASS := "aircraft:furnishings:mass".
Definition Aircraft_Furnishings_MASS_SCALER := "aircraft:furnishings:mass_scaler".
Definition Aircraft_Furnishings_USE_EMPIRICAL_EQUATION := "aircraft:furnishings:use_empirical_equation".
Definition Aircraft_Fuselage_AVG_DIAMETER := "aircraft:fuselage:avg_diameter".
Definition Aircraft_Fuselage_CABIN_AREA := "aircraft:fuselage:cabin_area".
Definition Aircraft_Fuselage_HYDRAULIC_DIAMETER := "aircraft:fuselage:hydraulic_diameter".
Definition Aircraft_Fuselage_LENGTH := "aircraft:fuselage:length".
Definition Aircraft_Fuselage_PRESSURE_DIFFERENTIAL := "aircraft:fuselage:pressure_differential".
Definition Aircraft_HorizontalTail_AREA := "aircraft:horizontal_tail:area".
Definition Aircraft_Hydraulics_FLIGHT_CONTROL_MASS_COEFFICIENT :=
    "aircraft:hydraulics:flight_control_mass_coefficient".
Definition Aircraft_Hydraulics_GEAR_MASS_COEFFICIENT := "aircraft:hydraulics:gear_mass_coefficient".
Definition Aircraft_Hydraulics_MASS := "aircraft:hydraulics:mass".
Definition Aircraft_Instruments_MASS := "aircraft:instruments:mass".
Definition Aircraft_Instruments_MASS_COEFFICIENT := "aircraft:instruments:mass_coefficient".
Definition Aircraft_LandingGear_FIXED_GEAR := "aircraft:landing_gear:fixed_gear".
Definition Aircraft_LandingGear_MAIN_GEAR_MASS := "aircraft:landing_gear:main_gear_mass".
Definition Aircraft_LandingGear_MAIN_GEAR_MASS_FRACTION := "aircraft:landing_gear:main_gear_mass_fraction".
Definition Aircraft_LandingGear_MASS_COEFFICIENT := "aircraft:landing_gear:mass_coefficient".
Definition Aircraft_LandingGear_NOSE_GEAR_MASS := "aircraft:landing_gear:nose_gear_mass".
Definition Aircraft_LandingGear_TOTAL_MASS := "aircraft:landing_gear:total_mass".
Definition Aircraft_LandingGear_TOTAL_MASS_SCALER := "aircraft:landing_gear:total_mass_scaler".
Definition Aircraft_Nacelle_AVG_DIAMETER := "aircraft:nacelle:avg_diameter".
Definition Aircraft_Nacelle_CLEARANCE_RATIO := "aircraft:nacelle:clearance_ratio".
Definition Aircraft_OxygenSystem_MASS := "aircraft:oxygen_system:mass".
Definition Aircraft_Propulsion_TOTAL_ENGINE_OIL_MASS := "aircraft:propulsion:total_engine_oil_mass".
Definition Aircraft_Propulsion_TOTAL_NUM_ENGINES := "aircraft:propulsion:total_num_engines".
Definition Aircraft_VerticalTail_AREA := "aircraft:vertical_tail:area".
Definition Aircraft_Wing_AREA := "aircraft:wing:area".
Definition Aircraft_Wing_SPAN := "aircraft:wing:span".
Definition Aircraft_Wing_SURFACE_CONTROL_MASS := "aircraft:wing:surface_control_mass".
Definition Aircraft_Wing_SURFACE_CONTROL_MASS_COEFFICIENT := "aircraft:wing:surface_control_mass_coefficient".
Definition Aircraft_Wing_SURFACE_CONTROL_MASS_SCALER := "aircraft:wing:surface_control_mass_scaler".
Definition Aircraft_Wing_ULTIMATE_LOAD_FACTOR := "aircraft:wing:ultimate_load_factor".
Definition Aircraft_Wing_VERTICAL_MOUNT_LOCATION := "aircraft:wing:vertical_mount_location".
Definition Settings_VERBOSITY := "settings:verbosity".
Definition v_min_dive_vel := "min_dive_vel".
Definition v_mu := "mu".
Definition v_x0 := "x0".


(** ACMass.compute, /repo/aviary/subsystems/mass/gasp_based/air_conditioning.py L149-162 (one engine type or one node) *)
Definition ACMass_compute (op : options) (e : env) : list (string * R) :=
  let smooth := ob op Aircraft_Design_SMOOTH_MASS_DISCONTINUITIES in  (* L150 *)
  let mu := on op v_mu in  (* L151 *)
  let x0 := on op v_x0 in  (* L152 *)
  let gross_wt_initial := e Aircraft_Design_GROSS_MASS * GRAV_ENGLISH_LBM in  (* L153 *)
  let fus_len := e Aircraft_Fuselage_LENGTH in  (* L154 *)
  let p_diff_fus := e Aircraft_Fuselage_PRESSURE_DIFFERENTIAL in  (* L155 *)
  let cabin_width := e Aircraft_Fuselage_AVG_DIAMETER in  (* L156 *)
  let ac_coeff := e Aircraft_AirConditioning_MASS_COEFFICIENT in  (* L157 *)
  let air_conditioning_wt := (* common_compute, L9-25 *) 
      let air_conditioning_wt :=  (* L10 *)
        if smooth then
          let smoother := sigmoidX1 gross_wt_initial x0 mu in  (* L11 *)
          let air_cond1_wt := ac_coeff * (15 / 10 + p_diff_fus) * (358 / 1000 * fus_len * cabin_width ^ 2) ** (5 / 10)
              in  (* L13 *)
          let air_cond2_wt := 5 in  (* L15 *)
          let air_conditioning_wt := smoother * air_cond1_wt + (1 - smoother) * air_cond2_wt in  (* L16 *)
          air_conditioning_wt
        else
          let air_conditioning_wt :=  (* L18 *)
            if ltb 3500 gross_wt_initial then
              let air_conditioning_wt := ac_coeff * (15 / 10 + p_diff_fus) * (358 / 1000 * fus_len * cabin_width ^ 2)
                  ** (5 / 10) in  (* L19 *)
              air_conditioning_wt
            else
              let air_conditioning_wt := 5 in  (* L23 *)
              air_conditioning_wt in
          air_conditioning_wt in
      air_conditioning_wt in  (* L159 *)
  let o_AirConditioning_MASS := air_conditioning_wt / GRAV_ENGLISH_LBM in  (* L162 *)
  [(Aircraft_AirConditioning_MASS, o_AirConditioning_MASS)].

(** ACMass.compute_partials, /repo/aviary/subsystems/mass/gasp_based/air_conditioning.py L164-195 *)
Definition ACMass_partials (op : options) (e : env) : list (string * string * R) :=
  let smooth := ob op Aircraft_Design_SMOOTH_MASS_DISCONTINUITIES in  (* L165 *)
  let mu := on op v_mu in  (* L166 *)
  let x0 := on op v_x0 in  (* L167 *)
  let gross_wt_initial := e Aircraft_Design_GROSS_MASS * GRAV_ENGLISH_LBM in  (* L168 *)
  let fus_len := e Aircraft_Fuselage_LENGTH in  (* L169 *)
  let p_diff_fus := e Aircraft_Fuselage_PRESSURE_DIFFERENTIAL in  (* L170 *)
  let cabin_width := e Aircraft_Fuselage_AVG_DIAMETER in  (* L171 *)
  let ac_coeff := e Aircraft_AirConditioning_MASS_COEFFICIENT in  (* L172 *)
  let '(dac_wt_dgross_wt, dac_wt_dfus_len, dac_wt_dp_diff_fus, dac_wt_dcabin_width, dac_wt_dac_coeff) := (*
      common_conpute_partials, L28-118 *) 
      let dac_wt_dgross_wt :=  (* L31 *)
        if smooth then
          let air_cond1_wt := ac_coeff * (15 / 10 + p_diff_fus) * (358 / 1000 * fus_len * cabin_width ^ 2) ** (5 / 10)
              in  (* L32 *)
          let air_cond2_wt := 5 in  (* L33 *)
          let dac_wt_dgross_wt := dSigmoidX1 gross_wt_initial x0 mu * air_cond1_wt - dSigmoidX1 gross_wt_initial x0 mu
              * air_cond2_wt in  (* L35 *)
          dac_wt_dgross_wt
        else
          let dac_wt_dgross_wt := 0 in  (* L40 *)
          dac_wt_dgross_wt in
      let dac_wt_dfus_1_len := 5 / 10 * ac_coeff * (15 / 10 + p_diff_fus) * (358 / 1000) * cabin_width ^ 2 * (358 /
          1000 * fus_len * cabin_width ^ 2) ** (- 5 / 10) in  (* L43 *)
      let dac_wt_dp_diff_1_fus := ac_coeff * (358 / 1000 * fus_len * cabin_width ^ 2) ** (5 / 10) in  (* L51 *)
      let dac_wt_dcabin_1_width := ac_coeff * (15 / 10 + p_diff_fus) * (358 / 1000) * fus_len * cabin_width * (358 /
          1000 * fus_len * cabin_width ^ 2) ** (- 5 / 10) in  (* L52 *)
      let dac_wt_dac_1_coeff := (15 / 10 + p_diff_fus) * (358 / 1000 * fus_len * cabin_width ^ 2) ** (5 / 10) in  (* L60 *)
      let dac_wt_dfus_2_len := 0 in  (* L63 *)
      let dac_wt_dp_diff_2_fus := 0 in  (* L64 *)
      let dac_wt_dcabin_2_width := 0 in  (* L65 *)
      let dac_wt_dac_2_coeff := 0 in  (* L66 *)
      let dac_wt_dfus_len :=  (* L68 *)
        if smooth then
          let dac_wt_dfus_len := sigmoidX1 gross_wt_initial x0 mu * dac_wt_dfus_1_len + (1 - sigmoidX1
              gross_wt_initial x0 mu) * dac_wt_dfus_2_len in  (* L69 *)
          dac_wt_dfus_len
        else
          let dac_wt_dfus_len :=  (* L74 *)
            if ltb 3500 gross_wt_initial then
              let dac_wt_dfus_len := dac_wt_dfus_1_len in  (* L75 *)
              dac_wt_dfus_len
            else
              let dac_wt_dfus_len := dac_wt_dfus_2_len in  (* L77 *)
              dac_wt_dfus_len in
          dac_wt_dfus_len in
      let dac_wt_dp_diff_fus :=  (* L79 *)
        if smooth then
          let dac_wt_dp_diff_fus := sigmoidX1 gross_wt_initial x0 mu * dac_wt_dp_diff_1_fus + (1 - sigmoidX1
              gross_wt_initial x0 mu) * dac_wt_dp_diff_2_fus in  (* L80 *)
          dac_wt_dp_diff_fus
        else
          let dac_wt_dp_diff_fus :=  (* L85 *)
            if ltb 3500 gross_wt_initial then
              let dac_wt_dp_diff_fus := dac_wt_dp_diff_1_fus in  (* L86 *)
              dac_wt_dp_diff_fus
            else
              let dac_wt_dp_diff_fus := dac_wt_dp_diff_2_fus in  (* L88 *)
              dac_wt_dp_diff_fus in
          dac_wt_dp_diff_fus in
      let dac_wt_dcabin_width :=  (* L90 *)
        if smooth then
          let dac_wt_dcabin_width := sigmoidX1 gross_wt_initial x0 mu * dac_wt_dcabin_1_width + (1 - sigmoidX1
              gross_wt_initial x0 mu) * dac_wt_dcabin_2_width in  (* L91 *)
          dac_wt_dcabin_width
        else
          let dac_wt_dcabin_width :=  (* L96 *)
            if ltb 3500 gross_wt_initial then
              let dac_wt_dcabin_width := dac_wt_dcabin_1_width in  (* L97 *)
              dac_wt_dcabin_width
            else
              let dac_wt_dcabin_width := dac_wt_dcabin_2_width in  (* L99 *)
              dac_wt_dcabin_width in
          dac_wt_dcabin_width in
      let dac_wt_dac_coeff :=  (* L101 *)
        if smooth then
          let dac_wt_dac_coeff := sigmoidX1 gross_wt_initial x0 mu * dac_wt_dac_1_coeff + (1 - sigmoidX1
              gross_wt_initial x0 mu) * dac_wt_dac_2_coeff in  (* L102 *)
          dac_wt_dac_coeff
        else
          let dac_wt_dac_coeff :=  (* L107 *)
            if ltb 3500 gross_wt_initial then
              let dac_wt_dac_coeff := dac_wt_dac_1_coeff in  (* L108 *)
              dac_wt_dac_coeff
            else
              let dac_wt_dac_coeff := dac_wt_dac_2_coeff in  (* L110 *)
              dac_wt_dac_coeff in
          dac_wt_dac_coeff in
      (dac_wt_dgross_wt, dac_wt_dfus_len, dac_wt_dp_diff_fus, dac_wt_dcabin_width, dac_wt_dac_coeff) in  (* L174 *)
  let d_AirConditioning_MASS__Design_GROSS_MASS := dac_wt_dgross_wt in  (* L183 *)
  let d_AirConditioning_MASS__Fuselage_LENGTH := dac_wt_dfus_len / GRAV_ENGLISH_LBM in  (* L184 *)
  let d_AirConditioning_MASS__Fuselage_PRESSURE_DIFFERENTIAL := dac_wt_dp_diff_fus / GRAV_ENGLISH_LBM in  (* L187 *)
  let d_AirConditioning_MASS__Fuselage_AVG_DIAMETER := dac_wt_dcabin_width / GRAV_ENGLISH_LBM in  (* L190 *)
  let d_AirConditioning_MASS__AirConditioning_MASS_COEFFICIENT := dac_wt_dac_coeff / GRAV_ENGLISH_LBM in  (* L193 *)
  [(Aircraft_AirConditioning_MASS, Aircraft_Design_GROSS_MASS, d_AirConditioning_MASS__Design_GROSS_MASS);
   (Aircraft_AirConditioning_MASS, Aircraft_Fuselage_LENGTH, d_AirConditioning_MASS__Fuselage_LENGTH);
   (Aircraft_AirConditioning_MASS, Aircraft_Fuselage_PRESSURE_DIFFERENTIAL,
       d_AirConditioning_MASS__Fuselage_PRESSURE_DIFFERENTIAL);
   (Aircraft_AirConditioning_MASS, Aircraft_Fuselage_AVG_DIAMETER, d_AirConditioning_MASS__Fuselage_AVG_DIAMETER);
   (Aircraft_AirConditioning_MASS, Aircraft_AirConditioning_MASS_COEFFICIENT,
       d_AirConditioning_MASS__AirConditioning_MASS_COEFFICIENT)].

(** Inputs, outputs and declared partials: /repo/aviary/subsystems/mass/gasp_based/air_conditioning.py L129-147 *)
Definition ACMass (op : options) : comp := {|
  c_ins := [Aircraft_AirConditioning_MASS_COEFFICIENT;
            Aircraft_Design_GROSS_MASS;
            Aircraft_Fuselage_LENGTH;
            Aircraft_Fuselage_PRESSURE_DIFFERENTIAL;
            Aircraft_Fuselage_AVG_DIAMETER];
  c_outs := [Aircraft_AirConditioning_MASS];
  c_decl := [(Aircraft_AirConditioning_MASS, Aircraft_AirConditioning_MASS_COEFFICIENT, 0);
             (Aircraft_AirConditioning_MASS, Aircraft_Fuselage_LENGTH, 0);
             (Aircraft_AirConditioning_MASS, Aircraft_Fuselage_AVG_DIAMETER, 0);
             (Aircraft_AirConditioning_MASS, Aircraft_Fuselage_PRESSURE_DIFFERENTIAL, 0);
             (Aircraft_AirConditioning_MASS, Aircraft_Design_GROSS_MASS, 0)];
  c_run := ACMass_compute op; c_jac := ACMass_partials op |}.

(** BWBACMass.compute, /repo/aviary/subsystems/mass/gasp_based/air_conditioning.py L226-240 (one engine type or one node) *)
Definition BWBACMass_compute (op : options) (e : env) : list (string * R) :=
  let smooth := ob op Aircraft_Design_SMOOTH_MASS_DISCONTINUITIES in  (* L227 *)
  let mu := on op v_mu in  (* L228 *)
  let x0 := on op v_x0 in  (* L229 *)
  let gross_wt_initial := e Aircraft_Design_GROSS_MASS * GRAV_ENGLISH_LBM in  (* L230 *)
  let fus_len := e Aircraft_Fuselage_LENGTH in  (* L231 *)
  let p_diff_fus := e Aircraft_Fuselage_PRESSURE_DIFFERENTIAL in  (* L232 *)
  let cabin_width := e Aircraft_Fuselage_HYDRAULIC_DIAMETER in  (* L233 *)
  let ac_coeff := e Aircraft_AirConditioning_MASS_COEFFICIENT in  (* L234 *)
  let air_conditioning_wt := (* common_compute, L9-25 *) 
      let air_conditioning_wt :=  (* L10 *)
        if smooth then
          let smoother := sigmoidX1 gross_wt_initial x0 mu in  (* L11 *)
          let air_cond1_wt := ac_coeff * (15 / 10 + p_diff_fus) * (358 / 1000 * fus_len * cabin_width ^ 2) ** (5 / 10)
              in  (* L13 *)
          let air_cond2_wt := 5 in  (* L15 *)
          let air_conditioning_wt := smoother * air_cond1_wt + (1 - smoother) * air_cond2_wt in  (* L16 *)
          air_conditioning_wt
        else
          let air_conditioning_wt :=  (* L18 *)
            if ltb 3500 gross_wt_initial then
              let air_conditioning_wt := ac_coeff * (15 / 10 + p_diff_fus) * (358 / 1000 * fus_len * cabin_width ^ 2)
                  ** (5 / 10) in  (* L19 *)
              air_conditioning_wt
            else
              let air_conditioning_wt := 5 in  (* L23 *)
              air_conditioning_wt in
          air_conditioning_wt in
      air_conditioning_wt in  (* L236 *)
  let o_AirConditioning_MASS := air_conditioning_wt / GRAV_ENGLISH_LBM in  (* L240 *)
  [(Aircraft_AirConditioning_MASS, o_AirConditioning_MASS)].

(** BWBACMass.compute_partials, /repo/aviary/subsystems/mass/gasp_based/air_conditioning.py L242-273 *)
Definition BWBACMass_partials (op : options) (e : env) : list (string * string * R) :=
  let smooth := ob op Aircraft_Design_SMOOTH_MASS_DISCONTINUITIES in  (* L243 *)
  let mu := on op v_mu in  (* L244 *)
  let x0 := on op v_x0 in  (* L245 *)
  let gross_wt_initial := e Aircraft_Design_GROSS_MASS * GRAV_ENGLISH_LBM in  (* L246 *)
  let fus_len := e Aircraft_Fuselage_LENGTH in  (* L247 *)
  let p_diff_fus := e Aircraft_Fuselage_PRESSURE_DIFFERENTIAL in  (* L248 *)
  let cabin_width := e Aircraft_Fuselage_HYDRAULIC_DIAMETER in  (* L249 *)
  let ac_coeff := e Aircraft_AirConditioning_MASS_COEFFICIENT in  (* L250 *)
  let '(dac_wt_dgross_wt, dac_wt_dfus_len, dac_wt_dp_diff_fus, dac_wt_dcabin_width, dac_wt_dac_coeff) := (*
      common_conpute_partials, L28-118 *) 
      let dac_wt_dgross_wt :=  (* L31 *)
        if smooth then
          let air_cond1_wt := ac_coeff * (15 / 10 + p_diff_fus) * (358 / 1000 * fus_len * cabin_width ^ 2) ** (5 / 10)
              in  (* L32 *)
          let air_cond2_wt := 5 in  (* L33 *)
          let dac_wt_dgross_wt := dSigmoidX1 gross_wt_initial x0 mu * air_cond1_wt - dSigmoidX1 gross_wt_initial x0 mu
              * air_cond2_wt in  (* L35 *)
          dac_wt_dgross_wt
        else
          let dac_wt_dgross_wt := 0 in  (* L40 *)
          dac_wt_dgross_wt in
      let dac_wt_dfus_1_len := 5 / 10 * ac_coeff * (15 / 10 + p_diff_fus) * (358 / 1000) * cabin_width ^ 2 * (358 /
          1000 * fus_len * cabin_width ^ 2) ** (- 5 / 10) in  (* L43 *)
      let dac_wt_dp_diff_1_fus := ac_coeff * (358 / 1000 * fus_len * cabin_width ^ 2) ** (5 / 10) in  (* L51 *)
      let dac_wt_dcabin_1_width := ac_coeff * (15 / 10 + p_diff_fus) * (358 / 1000) * fus_len * cabin_width * (358 /
          1000 * fus_len * cabin_width ^ 2) ** (- 5 / 10) in  (* L52 *)
      let dac_wt_dac_1_coeff := (15 / 10 + p_diff_fus) * (358 / 1000 * fus_len * cabin_width ^ 2) ** (5 / 10) in  (* L60 *)
      let dac_wt_dfus_2_len := 0 in  (* L63 *)
      let dac_wt_dp_diff_2_fus := 0 in  (* L64 *)
      let dac_wt_dcabin_2_width := 0 in  (* L65 *)
      let dac_wt_dac_2_coeff := 0 in  (* L66 *)
      let dac_wt_dfus_len :=  (* L68 *)
        if smooth then
          let dac_wt_dfus_len := sigmoidX1 gross_wt_initial x0 mu * dac_wt_dfus_1_len + (1 - sigmoidX1
              gross_wt_initial x0 mu) * dac_wt_dfus_2_len in  (* L69 *)
          dac_wt_dfus_len
        else
          let dac_wt_dfus_len :=  (* L74 *)
            if ltb 3500 gross_wt_initial then
              let dac_wt_dfus_len := dac_wt_dfus_1_len in  (* L75 *)
              dac_wt_dfus_len
            else
              let dac_wt_dfus_len := dac_wt_dfus_2_len in  (* L77 *)
              dac_wt_dfus_len in
          dac_wt_dfus_len in
      let dac_wt_dp_diff_fus :=  (* L79 *)
        if smooth then
          let dac_wt_dp_diff_fus := sigmoidX1 gross_wt_initial x0 mu * dac_wt_dp_diff_1_fus + (1 - sigmoidX1
              gross_wt_initial x0 mu) * dac_wt_dp_diff_2_fus in  (* L80 *)
          dac_wt_dp_diff_fus
        else
          let dac_wt_dp_diff_fus :=  (* L85 *)
            if ltb 3500 gross_wt_initial then
              let dac_wt_dp_diff_fus := dac_wt_dp_diff_1_fus in  (* L86 *)
              dac_wt_dp_diff_fus
            else
              let dac_wt_dp_diff_fus := dac_wt_dp_diff_2_fus in  (* L88 *)
              dac_wt_dp_diff_fus in
          dac_wt_dp_diff_fus in
      let dac_wt_dcabin_width :=  (* L90 *)
        if smooth then
          let dac_wt_dcabin_width := sigmoidX1 gross_wt_initial x0 mu * dac_wt_dcabin_1_width + (1 - sigmoidX1
              gross_wt_initial x0 mu) * dac_wt_dcabin_2_width in  (* L91 *)
          dac_wt_dcabin_width
        else
          let dac_wt_dcabin_width :=  (* L96 *)
            if ltb 3500 gross_wt_initial then
              let dac_wt_dcabin_width := dac_wt_dcabin_1_width in  (* L97 *)
              dac_wt_dcabin_width
            else
              let dac_wt_dcabin_width := dac_wt_dcabin_2_width in  (* L99 *)
              dac_wt_dcabin_width in
          dac_wt_dcabin_width in
      let dac_wt_dac_coeff :=  (* L101 *)
        if smooth then
          let dac_wt_dac_coeff := sigmoidX1 gross_wt_initial x0 mu * dac_wt_dac_1_coeff + (1 - sigmoidX1
              gross_wt_initial x0 mu) * dac_wt_dac_2_coeff in  (* L102 *)
          dac_wt_dac_coeff
        else
          let dac_wt_dac_coeff :=  (* L107 *)
            if ltb 3500 gross_wt_initial then
              let dac_wt_dac_coeff := dac_wt_dac_1_coeff in  (* L108 *)
              dac_wt_dac_coeff
            else
              let dac_wt_dac_coeff := dac_wt_dac_2_coeff in  (* L110 *)
              dac_wt_dac_coeff in
          dac_wt_dac_coeff in
      (dac_wt_dgross_wt, dac_wt_dfus_len, dac_wt_dp_diff_fus, dac_wt_dcabin_width, dac_wt_dac_coeff) in  (* L252 *)
  let d_AirConditioning_MASS__Design_GROSS_MASS := dac_wt_dgross_wt in  (* L261 *)
  let d_AirConditioning_MASS__Fuselage_LENGTH := dac_wt_dfus_len / GRAV_ENGLISH_LBM in  (* L262 *)
  let d_AirConditioning_MASS__Fuselage_PRESSURE_DIFFERENTIAL := dac_wt_dp_diff_fus / GRAV_ENGLISH_LBM in  (* L265 *)
  let d_AirConditioning_MASS__Fuselage_HYDRAULIC_DIAMETER := dac_wt_dcabin_width / GRAV_ENGLISH_LBM in  (* L268 *)
  let d_AirConditioning_MASS__AirConditioning_MASS_COEFFICIENT := dac_wt_dac_coeff / GRAV_ENGLISH_LBM in  (* L271 *)
  [(Aircraft_AirConditioning_MASS, Aircraft_Design_GROSS_MASS, d_AirConditioning_MASS__Design_GROSS_MASS);
   (Aircraft_AirConditioning_MASS, Aircraft_Fuselage_LENGTH, d_AirConditioning_MASS__Fuselage_LENGTH);
   (Aircraft_AirConditioning_MASS, Aircraft_Fuselage_PRESSURE_DIFFERENTIAL,
       d_AirConditioning_MASS__Fuselage_PRESSURE_DIFFERENTIAL);
   (Aircraft_AirConditioning_MASS, Aircraft_Fuselage_HYDRAULIC_DIAMETER,
       d_AirConditioning_MASS__Fuselage_HYDRAULIC_DIAMETER);
   (Aircraft_AirConditioning_MASS, Aircraft_AirConditioning_MASS_COEFFICIENT,
       d_AirConditioning_MASS__AirConditioning_MASS_COEFFICIENT)].

(** Inputs, outputs and declared partials: /repo/aviary/subsystems/mass/gasp_based/air_conditioning.py L206-224 *)
Definition BWBACMass (op : options) : comp := {|
  c_ins := [Aircraft_AirConditioning_MASS_COEFFICIENT;
            Aircraft_Design_GROSS_MASS;
            Aircraft_Fuselage_LENGTH;
            Aircraft_Fuselage_PRESSURE_DIFFERENTIAL;
            Aircraft_Fuselage_HYDRAULIC_DIAMETER];
  c_outs := [Aircraft_AirConditioning_MASS];
  c_decl := [(Aircraft_AirConditioning_MASS, Aircraft_AirConditioning_MASS_COEFFICIENT, 0);
             (Aircraft_AirConditioning_MASS, Aircraft_Fuselage_LENGTH, 0);
             (Aircraft_AirConditioning_MASS, Aircraft_Fuselage_HYDRAULIC_DIAMETER, 0);
             (Aircraft_AirConditioning_MASS, Aircraft_Fuselage_PRESSURE_DIFFERENTIAL, 0);
             (Aircraft_AirConditioning_MASS, Aircraft_Design_GROSS_MASS, 0)];
  c_run := BWBACMass_compute op; c_jac := BWBACMass_partials op |}.

(** AntiIcingMass.compute, /repo/aviary/subsystems/mass/gasp_based/anti_icing.py L29-45 (one engine type or one node) *)
Definition AntiIcingMass_compute (op : options) (e : env) : list (string * R) :=
  let smooth := ob op Aircraft_Design_SMOOTH_MASS_DISCONTINUITIES in  (* L30 *)
  let wing_area := e Aircraft_Wing_AREA in  (* L31 *)
  let htail_area := e Aircraft_HorizontalTail_AREA in  (* L32 *)
  let vtail_area := e Aircraft_VerticalTail_AREA in  (* L33 *)
  let SSUM := wing_area + htail_area + vtail_area in  (* L35 *)
  let icing_wt := 227 / 10 * SSUM ** (5 / 10) - 385 in  (* L36 *)
  let icing_wt :=  (* L38 *)
    if smooth then
      let mu := on op v_mu in  (* L39 *)
      let icing_wt := smooth_max1 icing_wt 0 mu in  (* L40 *)
      icing_wt
    else
      let icing_wt :=  (* L42 *)
        if ltb icing_wt 0 then
          let icing_wt := 0 in  (* L43 *)
          icing_wt
        else
          icing_wt in
      icing_wt in
  let o_AntiIcing_MASS := icing_wt / GRAV_ENGLISH_LBM in  (* L45 *)
  [(Aircraft_AntiIcing_MASS, o_AntiIcing_MASS)].

(** AntiIcingMass.compute_partials, /repo/aviary/subsystems/mass/gasp_based/anti_icing.py L47-75 *)
Definition AntiIcingMass_partials (op : options) (e : env) : list (string * string * R) :=
  let smooth := ob op Aircraft_Design_SMOOTH_MASS_DISCONTINUITIES in  (* L48 *)
  let wing_area := e Aircraft_Wing_AREA in  (* L49 *)
  let htail_area := e Aircraft_HorizontalTail_AREA in  (* L50 *)
  let vtail_area := e Aircraft_VerticalTail_AREA in  (* L51 *)
  let SSUM := wing_area + htail_area + vtail_area in  (* L53 *)
  let icing_wt := 227 / 10 * SSUM ** (5 / 10) - 385 in  (* L54 *)
  let dicing_weight_dwing_area := 5 / 10 * (227 / 10) * SSUM ** (- 5 / 10) / GRAV_ENGLISH_LBM in  (* L56 *)
  let dicing_weight_dhtail_area := 5 / 10 * (227 / 10) * SSUM ** (- 5 / 10) / GRAV_ENGLISH_LBM in  (* L57 *)
  let dicing_weight_dvtail_area := 5 / 10 * (227 / 10) * SSUM ** (- 5 / 10) / GRAV_ENGLISH_LBM in  (* L58 *)
  let '(dicing_weight_dwing_area, dicing_weight_dhtail_area, dicing_weight_dvtail_area, icing_wt) :=  (* L60 *)
    if smooth then
      let mu := on op v_mu in  (* L61 *)
      let sm_fac := d_smooth_max1 icing_wt 0 mu in  (* L62 *)
      let dicing_weight_dwing_area := sm_fac * dicing_weight_dwing_area in  (* L63 *)
      let dicing_weight_dhtail_area := sm_fac * dicing_weight_dhtail_area in  (* L64 *)
      let dicing_weight_dvtail_area := sm_fac * dicing_weight_dvtail_area in  (* L65 *)
      (dicing_weight_dwing_area, dicing_weight_dhtail_area, dicing_weight_dvtail_area, icing_wt)
    else
      let '(icing_wt, dicing_weight_dwing_area, dicing_weight_dhtail_area, dicing_weight_dvtail_area) :=  (* L67 *)
        if ltb icing_wt 0 then
          let icing_wt := 0 in  (* L68 *)
          let dicing_weight_dwing_area := 0 in  (* L69 *)
          let dicing_weight_dhtail_area := 0 in  (* L70 *)
          let dicing_weight_dvtail_area := 0 in  (* L71 *)
          (icing_wt, dicing_weight_dwing_area, dicing_weight_dhtail_area, dicing_weight_dvtail_area)
        else
          (icing_wt, dicing_weight_dwing_area, dicing_weight_dhtail_area, dicing_weight_dvtail_area) in
      (dicing_weight_dwing_area, dicing_weight_dhtail_area, dicing_weight_dvtail_area, icing_wt) in
  let d_AntiIcing_MASS__Wing_AREA := dicing_weight_dwing_area in  (* L73 *)
  let d_AntiIcing_MASS__HorizontalTail_AREA := dicing_weight_dhtail_area in  (* L74 *)
  let d_AntiIcing_MASS__VerticalTail_AREA := dicing_weight_dvtail_area in  (* L75 *)
  [(Aircraft_AntiIcing_MASS, Aircraft_Wing_AREA, d_AntiIcing_MASS__Wing_AREA);
   (Aircraft_AntiIcing_MASS, Aircraft_HorizontalTail_AREA, d_AntiIcing_MASS__HorizontalTail_AREA);
   (Aircraft_AntiIcing_MASS, Aircraft_VerticalTail_AREA, d_AntiIcing_MASS__VerticalTail_AREA)].

(** Inputs, outputs and declared partials: /repo/aviary/subsystems/mass/gasp_based/anti_icing.py L19-27 *)
Definition AntiIcingMass (op : options) : comp := {|
  c_ins := [Aircraft_Wing_AREA;
            Aircraft_HorizontalTail_AREA;
            Aircraft_VerticalTail_AREA];
  c_outs := [Aircraft_AntiIcing_MASS];
  c_decl := [(Aircraft_AntiIcing_MASS, Aircraft_Wing_AREA, 0);
             (Aircraft_AntiIcing_MASS, Aircraft_HorizontalTail_AREA, 0);
             (Aircraft_AntiIcing_MASS, Aircraft_VerticalTail_AREA, 0)];
  c_run := AntiIcingMass_compute op; c_jac := AntiIcingMass_partials op |}.

(** APUMass.compute, /repo/aviary/subsystems/mass/gasp_based/apu.py L20-26 (one engine type or one node) *)
Definition APUMass_compute (op : options) (e : env) : list (string * R) :=
  let PAX := on op Aircraft_CrewPayload_Design_NUM_PASSENGERS in  (* L21 *)
  let o_APU_MASS :=  (* L23 *)
    if ltb 35 PAX then
      let o_APU_MASS := (262 / 10 * PAX ** (944 / 1000) - 136 / 10 * PAX) / GRAV_ENGLISH_LBM in  (* L24 *)
      o_APU_MASS
    else
      let o_APU_MASS := 0 in  (* L26 *)
      o_APU_MASS in
  [(Aircraft_APU_MASS, o_APU_MASS)].

Definition APUMass_partials (op : options) (e : env) : list (string * string * R) := [].

(** Inputs, outputs and declared partials: /repo/aviary/subsystems/mass/gasp_based/apu.py L17-18 *)
Definition APUMass (op : options) : comp := {|
  c_ins := [];
  c_outs := [Aircraft_APU_MASS];
  c_decl := [];
  c_run := APUMass_compute op; c_jac := APUMass_partials op |}.

(** AvionicsMass.compute, /repo/aviary/subsystems/mass/gasp_based/avionics.py L28-66 (one engine type or one node) *)
Definition AvionicsMass_compute (op : options) (e : env) : list (string * R) :=
  let PAX := on op Aircraft_CrewPayload_Design_NUM_PASSENGERS in  (* L29 *)
  let smooth := ob op Aircraft_Design_SMOOTH_MASS_DISCONTINUITIES in  (* L30 *)
  let gross_wt_initial := e Aircraft_Design_GROSS_MASS * GRAV_ENGLISH_LBM in  (* L32 *)
  let avionics_wt := 27 in  (* L34 *)
  let avionics_wt :=  (* L38 *)
    if ltb PAX 20 then
      let avionics_wt :=  (* L39 *)
        if smooth then
          let avionics_wt := 35538 / 1000 * exp (2 / 10000 * gross_wt_initial) in  (* L47 *)
          avionics_wt
        else
          let avionics_wt :=  (* L49 *)
            if leb 3000 gross_wt_initial then
              let avionics_wt := 65 in  (* L50 *)
              avionics_wt
            else
              avionics_wt in
          let avionics_wt :=  (* L51 *)
            if leb 5500 gross_wt_initial then
              let avionics_wt := 113 in  (* L52 *)
              avionics_wt
            else
              avionics_wt in
          let avionics_wt :=  (* L53 *)
            if leb 7500 gross_wt_initial then
              let avionics_wt := 163 in  (* L54 *)
              avionics_wt
            else
              avionics_wt in
          let avionics_wt :=  (* L55 *)
            if leb 11000 gross_wt_initial then
              let avionics_wt := 340 in  (* L56 *)
              avionics_wt
            else
              avionics_wt in
          avionics_wt in
      avionics_wt
    else
      avionics_wt in
  let avionics_wt :=  (* L57 *)
    if ((leb 20 PAX) && (ltb PAX 30))%bool then
      let avionics_wt := 400 in  (* L58 *)
      avionics_wt
    else
      let avionics_wt :=  (* L59 *)
        if ((leb 30 PAX) && (leb PAX 50))%bool then
          let avionics_wt := 500 in  (* L60 *)
          avionics_wt
        else
          let avionics_wt :=  (* L61 *)
            if ((ltb 50 PAX) && (leb PAX 100))%bool then
              let avionics_wt := 600 in  (* L62 *)
              avionics_wt
            else
              avionics_wt in
          avionics_wt in
      avionics_wt in
  let avionics_wt :=  (* L63 *)
    if ltb 100 PAX then
      let avionics_wt := 28 / 10 * PAX + 1010 in  (* L64 *)
      avionics_wt
    else
      avionics_wt in
  let o_Avionics_MASS := avionics_wt / GRAV_ENGLISH_LBM in  (* L66 *)
  [(Aircraft_Avionics_MASS, o_Avionics_MASS)].

(** AvionicsMass.compute_partials, /repo/aviary/subsystems/mass/gasp_based/avionics.py L68-84 *)
Definition AvionicsMass_partials (op : options) (e : env) : list (string * string * R) :=
  let PAX := on op Aircraft_CrewPayload_Design_NUM_PASSENGERS in  (* L69 *)
  let smooth := ob op Aircraft_Design_SMOOTH_MASS_DISCONTINUITIES in  (* L70 *)
  let gross_wt_initial := e Aircraft_Design_GROSS_MASS * GRAV_ENGLISH_LBM in  (* L72 *)
  let davionics_wt_dgross_wt_initial :=  (* L74 *)
    if ltb PAX 20 then
      let davionics_wt_dgross_wt_initial :=  (* L75 *)
        if smooth then
          let davionics_wt_dgross_wt_initial := 71076 / 10000000 * exp (2 / 10000 * gross_wt_initial) in  (* L76 *)
          davionics_wt_dgross_wt_initial
        else
          let davionics_wt_dgross_wt_initial := 0 in  (* L78 *)
          davionics_wt_dgross_wt_initial in
      davionics_wt_dgross_wt_initial
    else
      let davionics_wt_dgross_wt_initial := 0 in  (* L80 *)
      davionics_wt_dgross_wt_initial in
  let d_Avionics_MASS__Design_GROSS_MASS := davionics_wt_dgross_wt_initial / GRAV_ENGLISH_LBM in  (* L82 *)
  [(Aircraft_Avionics_MASS, Aircraft_Design_GROSS_MASS, d_Avionics_MASS__Design_GROSS_MASS)].

(** Inputs, outputs and declared partials: /repo/aviary/subsystems/mass/gasp_based/avionics.py L20-26 *)
Definition AvionicsMass (op : options) : comp := {|
  c_ins := [Aircraft_Design_GROSS_MASS];
  c_outs := [Aircraft_Avionics_MASS];
  c_decl := [(Aircraft_Avionics_MASS, Aircraft_Design_GROSS_MASS, 0)];
  c_run := AvionicsMass_compute op; c_jac := AvionicsMass_partials op |}.

(** CargoContainerMass.compute, /repo/aviary/subsystems/mass/gasp_based/cargo_containers.py L25-36 (one engine type or one node) *)
Definition CargoContainerMass_compute (op : options) (e : env) : list (string * R) :=
  let PAX := on op Aircraft_CrewPayload_Design_NUM_PASSENGERS in  (* L26 *)
  let uld_per_pax := on op Aircraft_CrewPayload_ULD_MASS_PER_PASSENGER in  (* L28 *)
  let uld_per_pax := uld_per_pax in  (* L29 *)
  let unit_weight_cargo_handling := 165 in  (* L32 *)
  let cargo_handling_wt := (floorR (PAX * uld_per_pax) + 1) * unit_weight_cargo_handling in  (* L34 *)
  let o_CrewPayload_CARGO_CONTAINER_MASS := cargo_handling_wt / GRAV_ENGLISH_LBM in  (* L36 *)
  [(Aircraft_CrewPayload_CARGO_CONTAINER_MASS, o_CrewPayload_CARGO_CONTAINER_MASS)].

Definition CargoContainerMass_partials (op : options) (e : env) : list (string * string * R) := [].

(** Inputs, outputs and declared partials: /repo/aviary/subsystems/mass/gasp_based/cargo_containers.py L22-23 *)
Definition CargoContainerMass (op : options) : comp := {|
  c_ins := [];
  c_outs := [Aircraft_CrewPayload_CARGO_CONTAINER_MASS];
  c_decl := [];
  c_run := CargoContainerMass_compute op; c_jac := CargoContainerMass_partials op |}.

(** MiscControlMass.compute, /repo/aviary/subsystems/mass/gasp_based/control.py L52-73 (one engine type or one node) *)
Definition MiscControlMass_compute (op : options) (e : env) : list (string * R) :=
  let gross_wt_initial := e Aircraft_Design_GROSS_MASS * GRAV_ENGLISH_LBM in  (* L53 *)
  let c_mass_trend_cockpit_control := e Aircraft_Design_COCKPIT_CONTROL_MASS_COEFFICIENT in  (* L55 *)
  let stab_aug_ref_wt := e Aircraft_Controls_STABILITY_AUGMENTATION_SYSTEM_REFERENCE_MASS * GRAV_ENGLISH_LBM in  (* L57 *)
  let CK15 := e Aircraft_Controls_COCKPIT_CONTROL_MASS_SCALER in  (* L61 *)
  let CK19 := e Aircraft_Controls_STABILITY_AUGMENTATION_SYSTEM_MASS_SCALER in  (* L62 *)
  let intermediate_cockpit_control_wt := c_mass_trend_cockpit_control * (gross_wt_initial / 1000) ** (41 / 100) in  (* L64 *)
  let cockpit_control_wt := CK15 * intermediate_cockpit_control_wt in  (* L67 *)
  let stab_control_wt := CK19 * stab_aug_ref_wt in  (* L68 *)
  let o_Controls_COCKPIT_CONTROL_MASS := cockpit_control_wt / GRAV_ENGLISH_LBM in  (* L70 *)
  let o_Controls_STABILITY_AUGMENTATION_SYSTEM_MASS := stab_control_wt / GRAV_ENGLISH_LBM in  (* L71 *)
  [(Aircraft_Controls_COCKPIT_CONTROL_MASS, o_Controls_COCKPIT_CONTROL_MASS);
   (Aircraft_Controls_STABILITY_AUGMENTATION_SYSTEM_MASS, o_Controls_STABILITY_AUGMENTATION_SYSTEM_MASS)].

(** MiscControlMass.compute_partials, /repo/aviary/subsystems/mass/gasp_based/control.py L75-111 *)
Definition MiscControlMass_partials (op : options) (e : env) : list (string * string * R) :=
  let gross_wt_initial := e Aircraft_Design_GROSS_MASS * GRAV_ENGLISH_LBM in  (* L76 *)
  let c_mass_trend_cockpit_control := e Aircraft_Design_COCKPIT_CONTROL_MASS_COEFFICIENT in  (* L77 *)
  let stab_aug_ref_wt := e Aircraft_Controls_STABILITY_AUGMENTATION_SYSTEM_REFERENCE_MASS in  (* L79 *)
  let CK15 := e Aircraft_Controls_COCKPIT_CONTROL_MASS_SCALER in  (* L80 *)
  let CK19 := e Aircraft_Controls_STABILITY_AUGMENTATION_SYSTEM_MASS_SCALER in  (* L81 *)
  let d_Controls_STABILITY_AUGMENTATION_SYSTEM_MASS__Controls_STABILITY_AUGMENTATION_SYSTEM_MASS_SCALER :=
      stab_aug_ref_wt in  (* L83 *)
  let d_Controls_STABILITY_AUGMENTATION_SYSTEM_MASS__Controls_STABILITY_AUGMENTATION_SYSTEM_REFERENCE_MASS := CK19 in  (* L87 *)
  let d_Controls_COCKPIT_CONTROL_MASS__Controls_COCKPIT_CONTROL_MASS_SCALER := c_mass_trend_cockpit_control *
      (gross_wt_initial / 1000) ** (41 / 100) / GRAV_ENGLISH_LBM in  (* L92 *)
  let d_Controls_COCKPIT_CONTROL_MASS__Design_COCKPIT_CONTROL_MASS_COEFFICIENT := CK15 * (gross_wt_initial / 1000) **
      (41 / 100) / GRAV_ENGLISH_LBM in  (* L97 *)
  let d_Controls_COCKPIT_CONTROL_MASS__Design_GROSS_MASS := CK15 * c_mass_trend_cockpit_control * (41 / 100) *
      (gross_wt_initial / 1000) ** (- 59 / 100) / 1000 in  (* L102 *)
  [(Aircraft_Controls_STABILITY_AUGMENTATION_SYSTEM_MASS, Aircraft_Controls_STABILITY_AUGMENTATION_SYSTEM_MASS_SCALER,
      d_Controls_STABILITY_AUGMENTATION_SYSTEM_MASS__Controls_STABILITY_AUGMENTATION_SYSTEM_MASS_SCALER);
   (Aircraft_Controls_STABILITY_AUGMENTATION_SYSTEM_MASS,
       Aircraft_Controls_STABILITY_AUGMENTATION_SYSTEM_REFERENCE_MASS,
       d_Controls_STABILITY_AUGMENTATION_SYSTEM_MASS__Controls_STABILITY_AUGMENTATION_SYSTEM_REFERENCE_MASS);
   (Aircraft_Controls_COCKPIT_CONTROL_MASS, Aircraft_Controls_COCKPIT_CONTROL_MASS_SCALER,
       d_Controls_COCKPIT_CONTROL_MASS__Controls_COCKPIT_CONTROL_MASS_SCALER);
   (Aircraft_Controls_COCKPIT_CONTROL_MASS, Aircraft_Design_COCKPIT_CONTROL_MASS_COEFFICIENT,
       d_Controls_COCKPIT_CONTROL_MASS__Design_COCKPIT_CONTROL_MASS_COEFFICIENT);
   (Aircraft_Controls_COCKPIT_CONTROL_MASS, Aircraft_Design_GROSS_MASS,
       d_Controls_COCKPIT_CONTROL_MASS__Design_GROSS_MASS)].

(** Inputs, outputs and declared partials: /repo/aviary/subsystems/mass/gasp_based/control.py L14-50 *)
Definition MiscControlMass (op : options) : comp := {|
  c_ins := [Aircraft_Wing_SURFACE_CONTROL_MASS_COEFFICIENT;
            Aircraft_Wing_AREA;
            Aircraft_Design_GROSS_MASS;
            Aircraft_Wing_ULTIMATE_LOAD_FACTOR;
            Aircraft_Design_COCKPIT_CONTROL_MASS_COEFFICIENT;
            Aircraft_Controls_STABILITY_AUGMENTATION_SYSTEM_REFERENCE_MASS;
            Aircraft_Controls_COCKPIT_CONTROL_MASS_SCALER;
            Aircraft_Wing_SURFACE_CONTROL_MASS_SCALER;
            Aircraft_Controls_STABILITY_AUGMENTATION_SYSTEM_MASS_SCALER;
            Aircraft_Controls_CONTROL_MASS_INCREMENT];
  c_outs := [Aircraft_Controls_COCKPIT_CONTROL_MASS;
             Aircraft_Controls_STABILITY_AUGMENTATION_SYSTEM_MASS];
  c_decl := [(Aircraft_Controls_COCKPIT_CONTROL_MASS, Aircraft_Controls_COCKPIT_CONTROL_MASS_SCALER, 0);
             (Aircraft_Controls_COCKPIT_CONTROL_MASS, Aircraft_Design_COCKPIT_CONTROL_MASS_COEFFICIENT, 0);
             (Aircraft_Controls_COCKPIT_CONTROL_MASS, Aircraft_Design_GROSS_MASS, 0);
             (Aircraft_Controls_STABILITY_AUGMENTATION_SYSTEM_MASS,
                 Aircraft_Controls_STABILITY_AUGMENTATION_SYSTEM_MASS_SCALER, 0);
             (Aircraft_Controls_STABILITY_AUGMENTATION_SYSTEM_MASS,
                 Aircraft_Controls_STABILITY_AUGMENTATION_SYSTEM_REFERENCE_MASS, 0)];
  c_run := MiscControlMass_compute op; c_jac := MiscControlMass_partials op |}.

(** SurfaceControlMass.compute, /repo/aviary/subsystems/mass/gasp_based/control.py L146-168 (one engine type or one node) *)
Definition SurfaceControlMass_compute (op : options) (e : env) : list (string * R) :=
  let c_mass_trend_wing_control := e Aircraft_Wing_SURFACE_CONTROL_MASS_COEFFICIENT in  (* L147 *)
  let wing_area := e Aircraft_Wing_AREA in  (* L148 *)
  let gross_wt_initial := e Aircraft_Design_GROSS_MASS * GRAV_ENGLISH_LBM in  (* L149 *)
  let ULF := e Aircraft_Wing_ULTIMATE_LOAD_FACTOR in  (* L150 *)
  let CK15 := e Aircraft_Controls_COCKPIT_CONTROL_MASS_SCALER in  (* L151 *)
  let CK18 := e Aircraft_Wing_SURFACE_CONTROL_MASS_SCALER in  (* L152 *)
  let min_dive_vel := e v_min_dive_vel in  (* L153 *)
  let dive_param := (115 / 100 * min_dive_vel) ^ 2 / 391 in  (* L155 *)
  let intermediate_control_wt := c_mass_trend_wing_control * wing_area ** (317 / 1000) * (gross_wt_initial / 1000) **
      (602 / 1000) * ULF ** (525 / 1000) * dive_param ** (345 / 1000) in  (* L156 *)
  let intermediate_cockpit_control_wt := e Aircraft_Controls_COCKPIT_CONTROL_MASS / CK15 * GRAV_ENGLISH_LBM in  (* L163 *)
  let wing_control_wt := CK18 * (intermediate_control_wt - intermediate_cockpit_control_wt) in  (* L166 *)
  let o_Wing_SURFACE_CONTROL_MASS := wing_control_wt / GRAV_ENGLISH_LBM in  (* L168 *)
  [(Aircraft_Wing_SURFACE_CONTROL_MASS, o_Wing_SURFACE_CONTROL_MASS)].

(** SurfaceControlMass.compute_partials, /repo/aviary/subsystems/mass/gasp_based/control.py L170-271 *)
Definition SurfaceControlMass_partials (op : options) (e : env) : list (string * string * R) :=
  let c_mass_trend_wing_control := e Aircraft_Wing_SURFACE_CONTROL_MASS_COEFFICIENT in  (* L171 *)
  let wing_area := e Aircraft_Wing_AREA in  (* L172 *)
  let gross_wt_initial := e Aircraft_Design_GROSS_MASS * GRAV_ENGLISH_LBM in  (* L173 *)
  let ULF := e Aircraft_Wing_ULTIMATE_LOAD_FACTOR in  (* L174 *)
  let CK15 := e Aircraft_Controls_COCKPIT_CONTROL_MASS_SCALER in  (* L175 *)
  let CK18 := e Aircraft_Wing_SURFACE_CONTROL_MASS_SCALER in  (* L176 *)
  let min_dive_vel := e v_min_dive_vel in  (* L177 *)
  let dive_param := (115 / 100 * min_dive_vel) ^ 2 / 391 in  (* L179 *)
  let intermediate_control_wt := c_mass_trend_wing_control * wing_area ** (317 / 1000) * (gross_wt_initial / 1000) **
      (602 / 1000) * ULF ** (525 / 1000) * dive_param ** (345 / 1000) in  (* L180 *)
  let intermediate_cockpit_control_wt := e Aircraft_Controls_COCKPIT_CONTROL_MASS / CK15 * GRAV_ENGLISH_LBM in  (* L188 *)
  let dSCW_dSWCC := CK18 * wing_area ** (317 / 1000) * (gross_wt_initial / 1000) ** (602 / 1000) * ULF ** (525 / 1000)
      * dive_param ** (345 / 1000) in  (* L195 *)
  let dSCW_dWA := 317 / 1000 * (c_mass_trend_wing_control * wing_area ** (317 / 1000 - 1) * (gross_wt_initial / 1000)
      ** (602 / 1000) * ULF ** (525 / 1000) * dive_param ** (345 / 1000)) in  (* L204 *)
  let dSCW_dWG := 602 / 1000 * c_mass_trend_wing_control * wing_area ** (317 / 1000) * (gross_wt_initial / 1000) **
      (602 / 1000 - 1) * (1 / 1000) * ULF ** (525 / 1000) * dive_param ** (345 / 1000) in  (* L213 *)
  let dSCW_dULF := 525 / 1000 * c_mass_trend_wing_control * wing_area ** (317 / 1000) * (gross_wt_initial / 1000) **
      (602 / 1000) * ULF ** (525 / 1000 - 1) * dive_param ** (345 / 1000) in  (* L224 *)
  let dSCW_dMDV := 345 / 1000 * c_mass_trend_wing_control * wing_area ** (317 / 1000) * (gross_wt_initial / 1000) **
      (602 / 1000) * ULF ** (525 / 1000) * dive_param ** (345 / 1000 - 1) * 2 * (115 / 100) * min_dive_vel * (115 /
      100) / 391 in  (* L234 *)
  let d_Wing_SURFACE_CONTROL_MASS__Wing_SURFACE_CONTROL_MASS_COEFFICIENT := dSCW_dSWCC / GRAV_ENGLISH_LBM in  (* L248 *)
  let d_Wing_SURFACE_CONTROL_MASS__Wing_AREA := dSCW_dWA / GRAV_ENGLISH_LBM in  (* L253 *)
  let d_Wing_SURFACE_CONTROL_MASS__Design_GROSS_MASS := CK18 * dSCW_dWG in  (* L255 *)
  let d_Wing_SURFACE_CONTROL_MASS__Wing_ULTIMATE_LOAD_FACTOR := dSCW_dULF / GRAV_ENGLISH_LBM in  (* L257 *)
  let d_Wing_SURFACE_CONTROL_MASS__Wing_SURFACE_CONTROL_MASS_SCALER := (intermediate_control_wt -
      intermediate_cockpit_control_wt) / GRAV_ENGLISH_LBM in  (* L261 *)
  let d_Wing_SURFACE_CONTROL_MASS__min_dive_vel := dSCW_dMDV / GRAV_ENGLISH_LBM in  (* L265 *)
  let d_Wing_SURFACE_CONTROL_MASS__Controls_COCKPIT_CONTROL_MASS := - CK18 / CK15 in  (* L267 *)
  let d_Wing_SURFACE_CONTROL_MASS__Controls_COCKPIT_CONTROL_MASS_SCALER := CK18 * e
      Aircraft_Controls_COCKPIT_CONTROL_MASS / CK15 ^ 2 in  (* L269 *)
  [(Aircraft_Wing_SURFACE_CONTROL_MASS, Aircraft_Wing_SURFACE_CONTROL_MASS_COEFFICIENT,
      d_Wing_SURFACE_CONTROL_MASS__Wing_SURFACE_CONTROL_MASS_COEFFICIENT);
   (Aircraft_Wing_SURFACE_CONTROL_MASS, Aircraft_Wing_AREA, d_Wing_SURFACE_CONTROL_MASS__Wing_AREA);
   (Aircraft_Wing_SURFACE_CONTROL_MASS, Aircraft_Design_GROSS_MASS, d_Wing_SURFACE_CONTROL_MASS__Design_GROSS_MASS);
   (Aircraft_Wing_SURFACE_CONTROL_MASS, Aircraft_Wing_ULTIMATE_LOAD_FACTOR,
       d_Wing_SURFACE_CONTROL_MASS__Wing_ULTIMATE_LOAD_FACTOR);
   (Aircraft_Wing_SURFACE_CONTROL_MASS, Aircraft_Wing_SURFACE_CONTROL_MASS_SCALER,
       d_Wing_SURFACE_CONTROL_MASS__Wing_SURFACE_CONTROL_MASS_SCALER);
   (Aircraft_Wing_SURFACE_CONTROL_MASS, v_min_dive_vel, d_Wing_SURFACE_CONTROL_MASS__min_dive_vel);
   (Aircraft_Wing_SURFACE_CONTROL_MASS, Aircraft_Controls_COCKPIT_CONTROL_MASS,
       d_Wing_SURFACE_CONTROL_MASS__Controls_COCKPIT_CONTROL_MASS);
   (Aircraft_Wing_SURFACE_CONTROL_MASS, Aircraft_Controls_COCKPIT_CONTROL_MASS_SCALER,
       d_Wing_SURFACE_CONTROL_MASS__Controls_COCKPIT_CONTROL_MASS_SCALER)].

(** Inputs, outputs and declared partials: /repo/aviary/subsystems/mass/gasp_based/control.py L119-144 *)
Definition SurfaceControlMass (op : options) : comp := {|
  c_ins := [Aircraft_Wing_SURFACE_CONTROL_MASS_COEFFICIENT;
            Aircraft_Wing_AREA;
            Aircraft_Design_GROSS_MASS;
            Aircraft_Wing_ULTIMATE_LOAD_FACTOR;
            v_min_dive_vel;
            Aircraft_Controls_COCKPIT_CONTROL_MASS_SCALER;
            Aircraft_Wing_SURFACE_CONTROL_MASS_SCALER;
            Aircraft_Controls_COCKPIT_CONTROL_MASS];
  c_outs := [Aircraft_Wing_SURFACE_CONTROL_MASS];
  c_decl := [(Aircraft_Wing_SURFACE_CONTROL_MASS, Aircraft_Wing_SURFACE_CONTROL_MASS_COEFFICIENT, 0);
             (Aircraft_Wing_SURFACE_CONTROL_MASS, Aircraft_Wing_AREA, 0);
             (Aircraft_Wing_SURFACE_CONTROL_MASS, Aircraft_Design_GROSS_MASS, 0);
             (Aircraft_Wing_SURFACE_CONTROL_MASS, Aircraft_Wing_ULTIMATE_LOAD_FACTOR, 0);
             (Aircraft_Wing_SURFACE_CONTROL_MASS, v_min_dive_vel, 0);
             (Aircraft_Wing_SURFACE_CONTROL_MASS, Aircraft_Controls_COCKPIT_CONTROL_MASS_SCALER, 0);
             (Aircraft_Wing_SURFACE_CONTROL_MASS, Aircraft_Wing_SURFACE_CONTROL_MASS_SCALER, 0);
             (Aircraft_Wing_SURFACE_CONTROL_MASS, Aircraft_Controls_COCKPIT_CONTROL_MASS, 0)];
  c_run := SurfaceControlMass_compute op; c_jac := SurfaceControlMass_partials op |}.

(** SumControlMass.compute, /repo/aviary/subsystems/mass/gasp_based/control.py L290-301 (one engine type or one node) *)
Definition SumControlMass_compute (op : options) (e : env) : list (string * R) :=
  let delta_control_wt := e Aircraft_Controls_CONTROL_MASS_INCREMENT * GRAV_ENGLISH_LBM in  (* L291 *)
  let cockpit_control_wt := e Aircraft_Controls_COCKPIT_CONTROL_MASS * GRAV_ENGLISH_LBM in  (* L293 *)
  let wing_control_wt := e Aircraft_Wing_SURFACE_CONTROL_MASS * GRAV_ENGLISH_LBM in  (* L294 *)
  let stab_control_wt := e Aircraft_Controls_STABILITY_AUGMENTATION_SYSTEM_MASS * GRAV_ENGLISH_LBM in  (* L295 *)
  let o_Controls_MASS := (cockpit_control_wt + wing_control_wt + stab_control_wt + delta_control_wt) /
      GRAV_ENGLISH_LBM in  (* L299 *)
  [(Aircraft_Controls_MASS, o_Controls_MASS)].

Definition SumControlMass_partials (op : options) (e : env) : list (string * string * R) := [].

(** Inputs, outputs and declared partials: /repo/aviary/subsystems/mass/gasp_based/control.py L279-288 *)
Definition SumControlMass (op : options) : comp := {|
  c_ins := [Aircraft_Controls_CONTROL_MASS_INCREMENT;
            Aircraft_Controls_COCKPIT_CONTROL_MASS;
            Aircraft_Controls_STABILITY_AUGMENTATION_SYSTEM_MASS;
            Aircraft_Wing_SURFACE_CONTROL_MASS];
  c_outs := [Aircraft_Controls_MASS];
  c_decl := [(Aircraft_Controls_MASS, Aircraft_Controls_CONTROL_MASS_INCREMENT, 1);
             (Aircraft_Controls_MASS, Aircraft_Controls_COCKPIT_CONTROL_MASS, 1);
             (Aircraft_Controls_MASS, Aircraft_Controls_STABILITY_AUGMENTATION_SYSTEM_MASS, 1);
             (Aircraft_Controls_MASS, Aircraft_Wing_SURFACE_CONTROL_MASS, 1)];
  c_run := SumControlMass_compute op; c_jac := SumControlMass_partials op |}.

(** CabinCrewMass.compute, /repo/aviary/subsystems/mass/gasp_based/crew.py L29-69 (one engine type or one node) *)
Definition CabinCrewMass_compute (op : options) (e : env) : list (string * R) :=
  let PAX := on op Aircraft_CrewPayload_Design_NUM_PASSENGERS in  (* L30 *)
  let water_mass_per_occupant := e Aircraft_CrewPayload_WATER_MASS_PER_OCCUPANT in  (* L31 *)
  let num_flight_attendants := 0 in  (* L33 *)
  let num_flight_attendants :=  (* L34 *)
    if leb 20 PAX then
      let num_flight_attendants := 1 in  (* L35 *)
      num_flight_attendants
    else
      num_flight_attendants in
  let num_flight_attendants :=  (* L36 *)
    if leb 51 PAX then
      let num_flight_attendants := 2 in  (* L37 *)
      num_flight_attendants
    else
      num_flight_attendants in
  let num_flight_attendants :=  (* L38 *)
    if leb 101 PAX then
      let num_flight_attendants := 3 in  (* L39 *)
      num_flight_attendants
    else
      num_flight_attendants in
  let num_flight_attendants :=  (* L40 *)
    if leb 151 PAX then
      let num_flight_attendants := 4 in  (* L41 *)
      num_flight_attendants
    else
      num_flight_attendants in
  let num_flight_attendants :=  (* L42 *)
    if leb 201 PAX then
      let num_flight_attendants := 5 in  (* L43 *)
      num_flight_attendants
    else
      num_flight_attendants in
  let num_flight_attendants :=  (* L44 *)
    if leb 251 PAX then
      let num_flight_attendants := 6 in  (* L45 *)
      num_flight_attendants
    else
      num_flight_attendants in
  let flight_attendant_wt := 177 * num_flight_attendants in  (* L56 *)
  let non_crew_bag_wt :=  (* L58 *)
    if leb 40 PAX then
      let non_crew_bag_wt := 20 * num_flight_attendants in  (* L59 *)
      non_crew_bag_wt
    else
      let non_crew_bag_wt := 10 * num_flight_attendants + 25 in  (* L61 *)
      non_crew_bag_wt in
  let water_mass := 0 in  (* L63 *)
  let water_mass :=  (* L64 *)
    if ltb 19 PAX then
      let water_mass := water_mass_per_occupant * num_flight_attendants in  (* L65 *)
      water_mass
    else
      water_mass in
  let o_CrewPayload_CABIN_CREW_MASS := (flight_attendant_wt + non_crew_bag_wt) / GRAV_ENGLISH_LBM + water_mass in  (* L67 *)
  [(Aircraft_CrewPayload_CABIN_CREW_MASS, o_CrewPayload_CABIN_CREW_MASS)].

(** CabinCrewMass.compute_partials, /repo/aviary/subsystems/mass/gasp_based/crew.py L71-96 *)
Definition CabinCrewMass_partials (op : options) (e : env) : list (string * string * R) :=
  let PAX := on op Aircraft_CrewPayload_Design_NUM_PASSENGERS in  (* L72 *)
  let num_flight_attendants := 0 in  (* L73 *)
  let num_flight_attendants :=  (* L74 *)
    if leb 20 PAX then
      let num_flight_attendants := 1 in  (* L75 *)
      num_flight_attendants
    else
      num_flight_attendants in
  let num_flight_attendants :=  (* L76 *)
    if leb 51 PAX then
      let num_flight_attendants := 2 in  (* L77 *)
      num_flight_attendants
    else
      num_flight_attendants in
  let num_flight_attendants :=  (* L78 *)
    if leb 101 PAX then
      let num_flight_attendants := 3 in  (* L79 *)
      num_flight_attendants
    else
      num_flight_attendants in
  let num_flight_attendants :=  (* L80 *)
    if leb 151 PAX then
      let num_flight_attendants := 4 in  (* L81 *)
      num_flight_attendants
    else
      num_flight_attendants in
  let num_flight_attendants :=  (* L82 *)
    if leb 201 PAX then
      let num_flight_attendants := 5 in  (* L83 *)
      num_flight_attendants
    else
      num_flight_attendants in
  let num_flight_attendants :=  (* L84 *)
    if leb 251 PAX then
      let num_flight_attendants := 6 in  (* L85 *)
      num_flight_attendants
    else
      num_flight_attendants in
  let d_CrewPayload_CABIN_CREW_MASS__CrewPayload_WATER_MASS_PER_OCCUPANT :=  (* L87 *)
    if ltb 19 PAX then
      let d_CrewPayload_CABIN_CREW_MASS__CrewPayload_WATER_MASS_PER_OCCUPANT := num_flight_attendants in  (* L88 *)
      d_CrewPayload_CABIN_CREW_MASS__CrewPayload_WATER_MASS_PER_OCCUPANT
    else
      let d_CrewPayload_CABIN_CREW_MASS__CrewPayload_WATER_MASS_PER_OCCUPANT := 0 in  (* L93 *)
      d_CrewPayload_CABIN_CREW_MASS__CrewPayload_WATER_MASS_PER_OCCUPANT in
  [(Aircraft_CrewPayload_CABIN_CREW_MASS, Aircraft_CrewPayload_WATER_MASS_PER_OCCUPANT,
      d_CrewPayload_CABIN_CREW_MASS__CrewPayload_WATER_MASS_PER_OCCUPANT)].

(** Inputs, outputs and declared partials: /repo/aviary/subsystems/mass/gasp_based/crew.py L21-27 *)
Definition CabinCrewMass (op : options) : comp := {|
  c_ins := [Aircraft_CrewPayload_WATER_MASS_PER_OCCUPANT];
  c_outs := [Aircraft_CrewPayload_CABIN_CREW_MASS];
  c_decl := [(Aircraft_CrewPayload_CABIN_CREW_MASS, Aircraft_CrewPayload_WATER_MASS_PER_OCCUPANT, 0)];
  c_run := CabinCrewMass_compute op; c_jac := CabinCrewMass_partials op |}.

(** FlightCrewMass.compute, /repo/aviary/subsystems/mass/gasp_based/crew.py L114-157 (one engine type or one node) *)
Definition FlightCrewMass_compute (op : options) (e : env) : list (string * R) :=
  let PAX := on op Aircraft_CrewPayload_Design_NUM_PASSENGERS in  (* L119 *)
  let engine_type := oe op Aircraft_Engine_TYPE in  (* L120 *)
  let water_mass_per_occupant := e Aircraft_CrewPayload_WATER_MASS_PER_OCCUPANT in  (* L122 *)
  let num_pilots := 1 in  (* L124 *)
  let num_pilots :=  (* L125 *)
    if ltb 9 PAX then
      let num_pilots := 2 in  (* L126 *)
      num_pilots
    else
      num_pilots in
  let num_pilots :=  (* L127 *)
    if ((enum_is engine_type "TURBOJET") && (ltb 5 PAX))%bool then
      let num_pilots := 2 in  (* L128 *)
      num_pilots
    else
      num_pilots in
  let num_pilots :=  (* L129 *)
    if leb 351 PAX then
      let num_pilots := 3 in  (* L130 *)
      num_pilots
    else
      num_pilots in
  let pilot_wt := 198 * num_pilots in  (* L142 *)
  let crew_bag_wt :=  (* L144 *)
    if leb 40 PAX then
      let crew_bag_wt := 45 * num_pilots in  (* L145 *)
      crew_bag_wt
    else
      let crew_bag_wt :=  (* L146 *)
        if ltb PAX 20 then
          let crew_bag_wt := 25 * num_pilots in  (* L147 *)
          crew_bag_wt
        else
          let crew_bag_wt := 10 * num_pilots + 25 in  (* L149 *)
          crew_bag_wt in
      crew_bag_wt in
  let water_mass := 0 in  (* L151 *)
  let water_mass :=  (* L152 *)
    if ltb 19 PAX then
      let water_mass := water_mass_per_occupant * num_pilots in  (* L153 *)
      water_mass
    else
      water_mass in
  let o_CrewPayload_FLIGHT_CREW_MASS := (pilot_wt + crew_bag_wt) / GRAV_ENGLISH_LBM + water_mass in  (* L155 *)
  [(Aircraft_CrewPayload_FLIGHT_CREW_MASS, o_CrewPayload_FLIGHT_CREW_MASS)].

(** FlightCrewMass.compute_partials, /repo/aviary/subsystems/mass/gasp_based/crew.py L159-179 *)
Definition FlightCrewMass_partials (op : options) (e : env) : list (string * string * R) :=
  let PAX := on op Aircraft_CrewPayload_Design_NUM_PASSENGERS in  (* L160 *)
  let engine_type := oe op Aircraft_Engine_TYPE in  (* L161 *)
  let num_pilots := 1 in  (* L162 *)
  let num_pilots :=  (* L163 *)
    if ltb 9 PAX then
      let num_pilots := 2 in  (* L164 *)
      num_pilots
    else
      num_pilots in
  let num_pilots :=  (* L165 *)
    if ((enum_is engine_type "TURBOJET") && (ltb 5 PAX))%bool then
      let num_pilots := 2 in  (* L166 *)
      num_pilots
    else
      num_pilots in
  let num_pilots :=  (* L167 *)
    if leb 351 PAX then
      let num_pilots := 3 in  (* L168 *)
      num_pilots
    else
      num_pilots in
  let d_CrewPayload_FLIGHT_CREW_MASS__CrewPayload_WATER_MASS_PER_OCCUPANT :=  (* L170 *)
    if ltb 19 PAX then
      let d_CrewPayload_FLIGHT_CREW_MASS__CrewPayload_WATER_MASS_PER_OCCUPANT := num_pilots in  (* L171 *)
      d_CrewPayload_FLIGHT_CREW_MASS__CrewPayload_WATER_MASS_PER_OCCUPANT
    else
      let d_CrewPayload_FLIGHT_CREW_MASS__CrewPayload_WATER_MASS_PER_OCCUPANT := 0 in  (* L176 *)
      d_CrewPayload_FLIGHT_CREW_MASS__CrewPayload_WATER_MASS_PER_OCCUPANT in
  [(Aircraft_CrewPayload_FLIGHT_CREW_MASS, Aircraft_CrewPayload_WATER_MASS_PER_OCCUPANT,
      d_CrewPayload_FLIGHT_CREW_MASS__CrewPayload_WATER_MASS_PER_OCCUPANT)].

(** Inputs, outputs and declared partials: /repo/aviary/subsystems/mass/gasp_based/crew.py L106-112 *)
Definition FlightCrewMass (op : options) : comp := {|
  c_ins := [Aircraft_CrewPayload_WATER_MASS_PER_OCCUPANT];
  c_outs := [Aircraft_CrewPayload_FLIGHT_CREW_MASS];
  c_decl := [(Aircraft_CrewPayload_FLIGHT_CREW_MASS, Aircraft_CrewPayload_WATER_MASS_PER_OCCUPANT, 0)];
  c_run := FlightCrewMass_compute op; c_jac := FlightCrewMass_partials op |}.

(** ElectricalMass.compute, /repo/aviary/subsystems/mass/gasp_based/electrical.py L27-41 (one engine type or one node) *)
Definition ElectricalMass_compute (op : options) (e : env) : list (string * R) :=
  let PAX := on op Aircraft_CrewPayload_Design_NUM_PASSENGERS in  (* L28 *)
  let num_engines := on op Aircraft_Propulsion_TOTAL_NUM_ENGINES in  (* L29 *)
  let gross_wt_initial := e Aircraft_Design_GROSS_MASS * GRAV_ENGLISH_LBM in  (* L30 *)
  let elec_mass_coeff := e Aircraft_Electrical_SYSTEM_MASS_PER_PASSENGER * GRAV_ENGLISH_LBM in  (* L31 *)
  let electrical_wt :=  (* L33 *)
    if leb PAX 12 then
      let electrical_wt := 3217 / 100000 * gross_wt_initial - 20 in  (* L34 *)
      electrical_wt
    else
      let electrical_wt :=  (* L36 *)
        if eqb num_engines 1 then
          let electrical_wt := 778 / 100000 * gross_wt_initial + 33 in  (* L37 *)
          electrical_wt
        else
          let electrical_wt := elec_mass_coeff * PAX + 170 in  (* L39 *)
          electrical_wt in
      electrical_wt in
  let o_Electrical_MASS := electrical_wt / GRAV_ENGLISH_LBM in  (* L41 *)
  [(Aircraft_Electrical_MASS, o_Electrical_MASS)].

(** ElectricalMass.compute_partials, /repo/aviary/subsystems/mass/gasp_based/electrical.py L43-64 *)
Definition ElectricalMass_partials (op : options) (e : env) : list (string * string * R) :=
  let PAX := on op Aircraft_CrewPayload_Design_NUM_PASSENGERS in  (* L44 *)
  let num_engines := on op Aircraft_Propulsion_TOTAL_NUM_ENGINES in  (* L45 *)
  let '(delectrical_wt_dgross_wt_initial, delectrical_wt_delec_mass_coeff) :=  (* L47 *)
    if leb PAX 12 then
      let delectrical_wt_dgross_wt_initial := 3217 / 100000 in  (* L48 *)
      let delectrical_wt_delec_mass_coeff := 0 in  (* L49 *)
      (delectrical_wt_dgross_wt_initial, delectrical_wt_delec_mass_coeff)
    else
      let '(delectrical_wt_dgross_wt_initial, delectrical_wt_delec_mass_coeff) :=  (* L51 *)
        if eqb num_engines 1 then
          let delectrical_wt_dgross_wt_initial := 778 / 100000 in  (* L52 *)
          let delectrical_wt_delec_mass_coeff := 0 in  (* L53 *)
          (delectrical_wt_dgross_wt_initial, delectrical_wt_delec_mass_coeff)
        else
          let delectrical_wt_dgross_wt_initial := 0 in  (* L55 *)
          let delectrical_wt_delec_mass_coeff := PAX * GRAV_ENGLISH_LBM in  (* L56 *)
          (delectrical_wt_dgross_wt_initial, delectrical_wt_delec_mass_coeff) in
      (delectrical_wt_dgross_wt_initial, delectrical_wt_delec_mass_coeff) in
  let d_Electrical_MASS__Electrical_SYSTEM_MASS_PER_PASSENGER := delectrical_wt_delec_mass_coeff / GRAV_ENGLISH_LBM in  (* L58 *)
  let d_Electrical_MASS__Design_GROSS_MASS := delectrical_wt_dgross_wt_initial / GRAV_ENGLISH_LBM in  (* L62 *)
  [(Aircraft_Electrical_MASS, Aircraft_Electrical_SYSTEM_MASS_PER_PASSENGER,
      d_Electrical_MASS__Electrical_SYSTEM_MASS_PER_PASSENGER);
   (Aircraft_Electrical_MASS, Aircraft_Design_GROSS_MASS, d_Electrical_MASS__Design_GROSS_MASS)].

(** Inputs, outputs and declared partials: /repo/aviary/subsystems/mass/gasp_based/electrical.py L18-25 *)
Definition ElectricalMass (op : options) : comp := {|
  c_ins := [Aircraft_Design_GROSS_MASS;
            Aircraft_Electrical_SYSTEM_MASS_PER_PASSENGER];
  c_outs := [Aircraft_Electrical_MASS];
  c_decl := [(Aircraft_Electrical_MASS, Aircraft_Design_GROSS_MASS, 0);
             (Aircraft_Electrical_MASS, Aircraft_Electrical_SYSTEM_MASS_PER_PASSENGER, 0)];
  c_run := ElectricalMass_compute op; c_jac := ElectricalMass_partials op |}.

(** EmergencyEquipment.compute, /repo/aviary/subsystems/mass/gasp_based/emergency_equipment.py L25-50 (one engine type or one node) *)
Definition EmergencyEquipment_compute (op : options) (e : env) : list (string * R) :=
  let num_pax := on op Aircraft_CrewPayload_Design_NUM_PASSENGERS in  (* L26 *)
  let num_flight_attendants := 0 in  (* L28 *)
  let num_flight_attendants :=  (* L29 *)
    if leb 20 num_pax then
      let num_flight_attendants := 1 in  (* L30 *)
      num_flight_attendants
    else
      num_flight_attendants in
  let num_flight_attendants :=  (* L31 *)
    if leb 51 num_pax then
      let num_flight_attendants := 2 in  (* L32 *)
      num_flight_attendants
    else
      num_flight_attendants in
  let num_flight_attendants :=  (* L33 *)
    if leb 101 num_pax then
      let num_flight_attendants := 3 in  (* L34 *)
      num_flight_attendants
    else
      num_flight_attendants in
  let num_flight_attendants :=  (* L35 *)
    if leb 151 num_pax then
      let num_flight_attendants := 4 in  (* L36 *)
      num_flight_attendants
    else
      num_flight_attendants in
  let num_flight_attendants :=  (* L37 *)
    if leb 201 num_pax then
      let num_flight_attendants := 5 in  (* L38 *)
      num_flight_attendants
    else
      num_flight_attendants in
  let num_flight_attendants :=  (* L39 *)
    if leb 251 num_pax then
      let num_flight_attendants := 6 in  (* L40 *)
      num_flight_attendants
    else
      num_flight_attendants in
  let emergency_wt := 0 in  (* L42 *)
  let emergency_wt :=  (* L43 *)
    if ltb 5 num_pax then
      let emergency_wt := 10 in  (* L44 *)
      emergency_wt
    else
      emergency_wt in
  let emergency_wt :=  (* L45 *)
    if ltb 9 num_pax then
      let emergency_wt := 15 in  (* L46 *)
      emergency_wt
    else
      emergency_wt in
  let emergency_wt :=  (* L47 *)
    if leb 35 num_pax then
      let emergency_wt := 25 * num_flight_attendants + 15 in  (* L48 *)
      emergency_wt
    else
      emergency_wt in
  let o_Design_EMERGENCY_EQUIPMENT_MASS := emergency_wt / GRAV_ENGLISH_LBM in  (* L50 *)
  [(Aircraft_Design_EMERGENCY_EQUIPMENT_MASS, o_Design_EMERGENCY_EQUIPMENT_MASS)].

Definition EmergencyEquipment_partials (op : options) (e : env) : list (string * string * R) := [].

(** Inputs, outputs and declared partials: /repo/aviary/subsystems/mass/gasp_based/emergency_equipment.py L22-23 *)
Definition EmergencyEquipment (op : options) : comp := {|
  c_ins := [];
  c_outs := [Aircraft_Design_EMERGENCY_EQUIPMENT_MASS];
  c_decl := [];
  c_run := EmergencyEquipment_compute op; c_jac := EmergencyEquipment_partials op |}.

(** EngineOilMass.compute, /repo/aviary/subsystems/mass/gasp_based/engine_oil.py L37-61 (one engine type or one node) *)
Definition EngineOilMass_compute (op : options) (e : env) : list (string * R) :=
  let engine_type := oe op Aircraft_Engine_TYPE in  (* L39 *)
  let num_engines := on op Aircraft_Engine_NUM_ENGINES in  (* L40 *)
  let Fn_SLS := e Aircraft_Engine_SCALED_SLS_THRUST in  (* L42 *)
  let oil_per_eng_wt := 0 in  (* L44 *)
  let oil_per_eng_wt :=  (* L47 *)
    if enum_is engine_type "TURBOJET" then
      let oil_per_eng_wt := 54 / 10000 * Fn_SLS + 12 in  (* L48 *)
      oil_per_eng_wt
    else
      let oil_per_eng_wt :=  (* L49 *)
        if ((enum_is engine_type "TURBOSHAFT") || (enum_is engine_type "TURBOPROP"))%bool then
          let oil_per_eng_wt := 214 / 10000 * Fn_SLS + 14 in  (* L50 *)
          oil_per_eng_wt
        else
          let oil_per_eng_wt := 0 in  (* L57 *)
          oil_per_eng_wt in
      oil_per_eng_wt in
  let o_Propulsion_TOTAL_ENGINE_OIL_MASS := oil_per_eng_wt * num_engines / GRAV_ENGLISH_LBM in  (* L59 *)
  [(Aircraft_Propulsion_TOTAL_ENGINE_OIL_MASS, o_Propulsion_TOTAL_ENGINE_OIL_MASS)].

(** EngineOilMass.compute_partials, /repo/aviary/subsystems/mass/gasp_based/engine_oil.py L63-85 *)
Definition EngineOilMass_partials (op : options) (e : env) : list (string * string * R) :=
  let engine_type := oe op Aircraft_Engine_TYPE in  (* L64 *)
  let num_engines := on op Aircraft_Engine_NUM_ENGINES in  (* L65 *)
  let Fn_SLS := e Aircraft_Engine_SCALED_SLS_THRUST in  (* L68 *)
  let doil_per_eng_wt_dFn_SLS := 0 in  (* L70 *)
  let doil_per_eng_wt_dFn_SLS :=  (* L73 *)
    if enum_is engine_type "TURBOJET" then
      let doil_per_eng_wt_dFn_SLS := 54 / 10000 in  (* L74 *)
      doil_per_eng_wt_dFn_SLS
    else
      let doil_per_eng_wt_dFn_SLS :=  (* L75 *)
        if ((enum_is engine_type "TURBOSHAFT") || (enum_is engine_type "TURBOPROP"))%bool then
          let doil_per_eng_wt_dFn_SLS := 214 / 10000 in  (* L76 *)
          doil_per_eng_wt_dFn_SLS
        else
          let doil_per_eng_wt_dFn_SLS := 0 in  (* L81 *)
          doil_per_eng_wt_dFn_SLS in
      doil_per_eng_wt_dFn_SLS in
  let d_Propulsion_TOTAL_ENGINE_OIL_MASS__Engine_SCALED_SLS_THRUST := doil_per_eng_wt_dFn_SLS * num_engines /
      GRAV_ENGLISH_LBM in  (* L83 *)
  [(Aircraft_Propulsion_TOTAL_ENGINE_OIL_MASS, Aircraft_Engine_SCALED_SLS_THRUST,
      d_Propulsion_TOTAL_ENGINE_OIL_MASS__Engine_SCALED_SLS_THRUST)].

(** Inputs, outputs and declared partials: /repo/aviary/subsystems/mass/gasp_based/engine_oil.py L28-35 *)
Definition EngineOilMass (op : options) : comp := {|
  c_ins := [Aircraft_Engine_SCALED_SLS_THRUST];
  c_outs := [Aircraft_Propulsion_TOTAL_ENGINE_OIL_MASS];
  c_decl := [(Aircraft_Propulsion_TOTAL_ENGINE_OIL_MASS, Aircraft_Engine_SCALED_SLS_THRUST, 0)];
  c_run := EngineOilMass_compute op; c_jac := EngineOilMass_partials op |}.

(** get_num_of_flight_attendent, /repo/aviary/subsystems/mass/gasp_based/furnishings.py L11-26 *)
Definition get_num_of_flight_attendent (num_pax : R) : R :=
  let num_flight_attendants := 0 in  (* L12 *)
  let num_flight_attendants :=  (* L13 *)
    if leb 20 num_pax then
      let num_flight_attendants := 1 in  (* L14 *)
      num_flight_attendants
    else
      num_flight_attendants in
  let num_flight_attendants :=  (* L15 *)
    if leb 51 num_pax then
      let num_flight_attendants := 2 in  (* L16 *)
      num_flight_attendants
    else
      num_flight_attendants in
  let num_flight_attendants :=  (* L17 *)
    if leb 101 num_pax then
      let num_flight_attendants := 3 in  (* L18 *)
      num_flight_attendants
    else
      num_flight_attendants in
  let num_flight_attendants :=  (* L19 *)
    if leb 151 num_pax then
      let num_flight_attendants := 4 in  (* L20 *)
      num_flight_attendants
    else
      num_flight_attendants in
  let num_flight_attendants :=  (* L21 *)
    if leb 201 num_pax then
      let num_flight_attendants := 5 in  (* L22 *)
      num_flight_attendants
    else
      num_flight_attendants in
  let num_flight_attendants :=  (* L23 *)
    if leb 251 num_pax then
      let num_flight_attendants := 6 in  (* L24 *)
      num_flight_attendants
    else
      num_flight_attendants in
  num_flight_attendants.

(** get_num_of_lavatories, /repo/aviary/subsystems/mass/gasp_based/furnishings.py L41-56 *)
Definition get_num_of_lavatories (num_pax : R) : R :=
  let num_lavatories := 0 in  (* L42 *)
  let num_lavatories :=  (* L43 *)
    if ltb 25 num_pax then
      let num_lavatories := 1 in  (* L44 *)
      num_lavatories
    else
      num_lavatories in
  let num_lavatories :=  (* L45 *)
    if leb 51 num_pax then
      let num_lavatories := 2 in  (* L46 *)
      num_lavatories
    else
      num_lavatories in
  let num_lavatories :=  (* L47 *)
    if leb 101 num_pax then
      let num_lavatories := 3 in  (* L48 *)
      num_lavatories
    else
      num_lavatories in
  let num_lavatories :=  (* L49 *)
    if leb 151 num_pax then
      let num_lavatories := 4 in  (* L50 *)
      num_lavatories
    else
      num_lavatories in
  let num_lavatories :=  (* L51 *)
    if leb 201 num_pax then
      let num_lavatories := 5 in  (* L52 *)
      num_lavatories
    else
      num_lavatories in
  let num_lavatories :=  (* L53 *)
    if leb 251 num_pax then
      let num_lavatories := 6 in  (* L54 *)
      num_lavatories
    else
      num_lavatories in
  num_lavatories.

(** get_num_of_pilots, /repo/aviary/subsystems/mass/gasp_based/furnishings.py L29-38 *)
Definition get_num_of_pilots (num_pax : R) (engine_type : string) : R :=
  let num_pilots := 1 in  (* L30 *)
  let num_pilots :=  (* L31 *)
    if ltb 9 num_pax then
      let num_pilots := 2 in  (* L32 *)
      num_pilots
    else
      num_pilots in
  let num_pilots :=  (* L33 *)
    if ((enum_is engine_type "TURBOJET") && (ltb 5 num_pax))%bool then
      let num_pilots := 2 in  (* L34 *)
      num_pilots
    else
      num_pilots in
  let num_pilots :=  (* L35 *)
    if leb 351 num_pax then
      let num_pilots := 3 in  (* L36 *)
      num_pilots
    else
      num_pilots in
  num_pilots.

(** FurnishingMass.compute, /repo/aviary/subsystems/mass/gasp_based/furnishings.py L365-381 (one engine type or one node) *)
Definition FurnishingMass_compute (op : options) (e : env) : list (string * R) :=
  let PAX := on op Aircraft_CrewPayload_Design_NUM_PASSENGERS in  (* L366 *)
  let smooth := ob op Aircraft_Design_SMOOTH_MASS_DISCONTINUITIES in  (* L367 *)
  let empirical := ob op Aircraft_Furnishings_USE_EMPIRICAL_EQUATION in  (* L368 *)
  let en_type := oe op Aircraft_Engine_TYPE in  (* L369 *)
  let mu := on op v_mu in  (* L370 *)
  let gross_wt_init := e Aircraft_Design_GROSS_MASS * GRAV_ENGLISH_LBM in  (* L372 *)
  let fus_len := e Aircraft_Fuselage_LENGTH in  (* L373 *)
  let cabin_width := e Aircraft_Fuselage_AVG_DIAMETER in  (* L374 *)
  let scaler := e Aircraft_Furnishings_MASS_SCALER in  (* L375 *)
  let acabin := e Aircraft_Fuselage_CABIN_AREA in  (* L376 *)
  let furnishing_wt := (* common_compute, L59-132 *) let engine_type := en_type in 
      let num_pilots := get_num_of_pilots PAX engine_type in  (* L62 *)
      let num_flight_attendants := get_num_of_flight_attendent PAX in  (* L63 *)
      let lavatories := get_num_of_lavatories PAX in  (* L64 *)
      let furnishing_wt :=  (* L66 *)
        if smooth then
          let furnishing_wt_1 := 65 / 1000 * gross_wt_init - 59 in  (* L68 *)
          let '(furnishing_wt_additional, cabin_len, agalley, furnishing_wt_2, CPX) :=  (* L70 *)
            if leb 50 PAX then
              let furnishing_wt_additional :=  (* L71 *)
                if empirical then
                  let furnishing_wt_additional := scaler * PAX in  (* L73 *)
                  furnishing_wt_additional
                else
                  let furnishing_wt_additional := 1184 / 10 * PAX - 4190 in  (* L76 *)
                  furnishing_wt_additional in
              let cabin_len := 75 / 100 * fus_len in  (* L78 *)
              let agalley := 5 / 10 * PAX in  (* L79 *)
              let furnishing_wt_2 := furnishing_wt_additional + num_pilots * (1 + cabin_width / 12) * 90 +
                  num_flight_attendants * 30 + lavatories * 240 + agalley * 12 + 15 / 10 * cabin_len * cabin_width *
                  PI / 2 + 5 / 10 * acabin in  (* L80 *)
              (furnishing_wt_additional, cabin_len, agalley, furnishing_wt_2, 0)
            else
              let CPX_lin := 28 + 10516 / 1000 * (cabin_width - 5667 / 1000) in  (* L90 *)
              let CPX := 28 * sigmoidX1 (CPX_lin / 28) 1 (- 1 / 100) + CPX_lin * sigmoidX1 (CPX_lin / 28) 1 (1 / 100)
                  * sigmoidX1 (CPX_lin / 62) 1 (- 1 / 100) + 62 * sigmoidX1 (CPX_lin / 62) 1 (1 / 100) in  (* L91 *)
              let furnishing_wt_2 := CPX * PAX + 310 in  (* L96 *)
              (0, 0, 0, furnishing_wt_2, CPX) in
          let smoother := sigmoidX1 gross_wt_init 10000 (1 / 100) in  (* L97 *)
          let furnishing_wt := (1 - smoother) * furnishing_wt_1 + (if smooth then 1 else 0) * furnishing_wt_2 in  (* L98 *)
          let furnishing_wt := smooth_max1 furnishing_wt 30 mu in  (* L99 *)
          furnishing_wt
        else
          let furnishing_wt :=  (* L101 *)
            if leb gross_wt_init 10000 then
              let furnishing_wt := 65 / 1000 * gross_wt_init - 59 in  (* L102 *)
              furnishing_wt
            else
              let furnishing_wt :=  (* L104 *)
                if leb 50 PAX then
                  let furnishing_wt_additional :=  (* L105 *)
                    if empirical then
                      let furnishing_wt_additional := scaler * PAX in  (* L107 *)
                      furnishing_wt_additional
                    else
                      let furnishing_wt_additional := 1184 / 10 * PAX - 4190 in  (* L110 *)
                      furnishing_wt_additional in
                  let cabin_len := 75 / 100 * fus_len in  (* L112 *)
                  let agalley := 5 / 10 * PAX in  (* L113 *)
                  let furnishing_wt := furnishing_wt_additional + num_pilots * (1 + cabin_width / 12) * 90 +
                      num_flight_attendants * 30 + lavatories * 240 + agalley * 12 + 15 / 10 * cabin_len * cabin_width
                      * PI / 2 + 5 / 10 * acabin in  (* L114 *)
                  furnishing_wt
                else
                  let CPX_lin := 28 + 10516 / 1000 * (cabin_width - 5667 / 1000) in  (* L124 *)
                  let CPX :=  (* L125 *)
                    if leb cabin_width (5667 / 1000) then
                      let CPX := 28 in  (* L126 *)
                      CPX
                    else
                      let CPX :=  (* L127 *)
                        if ltb (89 / 10) cabin_width then
                          let CPX := 62 in  (* L128 *)
                          CPX
                        else
                          0 in
                      CPX in
                  let furnishing_wt := CPX * PAX + 310 in  (* L129 *)
                  furnishing_wt in
              furnishing_wt in
          let furnishing_wt := Rmax furnishing_wt 30 in  (* L130 *)
          furnishing_wt in
      furnishing_wt in  (* L378 *)
  let o_Furnishings_MASS := furnishing_wt / GRAV_ENGLISH_LBM in  (* L381 *)
  [(Aircraft_Furnishings_MASS, o_Furnishings_MASS)].

(** FurnishingMass.compute_partials, /repo/aviary/subsystems/mass/gasp_based/furnishings.py L383-420 *)
Definition FurnishingMass_partials (op : options) (e : env) : list (string * string * R) :=
  let PAX := on op Aircraft_CrewPayload_Design_NUM_PASSENGERS in  (* L384 *)
  let smooth := ob op Aircraft_Design_SMOOTH_MASS_DISCONTINUITIES in  (* L385 *)
  let empirical := ob op Aircraft_Furnishings_USE_EMPIRICAL_EQUATION in  (* L386 *)
  let en_type := oe op Aircraft_Engine_TYPE in  (* L387 *)
  let mu := on op v_mu in  (* L388 *)
  let gross_wt_init := e Aircraft_Design_GROSS_MASS * GRAV_ENGLISH_LBM in  (* L390 *)
  let fus_len := e Aircraft_Fuselage_LENGTH in  (* L391 *)
  let cabin_width := e Aircraft_Fuselage_AVG_DIAMETER in  (* L392 *)
  let scaler := e Aircraft_Furnishings_MASS_SCALER in  (* L393 *)
  let acabin := e Aircraft_Fuselage_CABIN_AREA in  (* L394 *)
  let '(dfurnishing_wt_dcabin_width, dfurnishing_wt_dgross_wt_init, dfurnishing_wt_dfus_len, dfurnishing_wt_dscaler,
      dfurnishing_wt_dacabin) := (* common_compute_partials, L135-330 *) let engine_type := en_type in 
      let num_pilots := get_num_of_pilots PAX engine_type in  (* L138 *)
      let num_flight_attendants := get_num_of_flight_attendent PAX in  (* L139 *)
      let lavatories := get_num_of_lavatories PAX in  (* L140 *)
      let '(furnishing_wt, dfurnishing_wt_dcabin_width, dfurnishing_wt_dgross_wt_init, dfurnishing_wt_dfus_len,
          dfurnishing_wt_dscaler, dfurnishing_wt_dacabin) :=  (* L142 *)
        if smooth then
          let furnishing_wt_1 := 65 / 1000 * gross_wt_init - 59 in  (* L144 *)
          let dfurnishing_wt_dgross_wt_init_1 := 65 / 1000 in  (* L145 *)
          let dfurnishing_wt_dcabin_width_1 := 0 in  (* L146 *)
          let dfurnishing_wt_dfus_len_1 := 0 in  (* L147 *)
          let dfurnishing_wt_dscaler_1 := 0 in  (* L148 *)
          let dfurnishing_wt_dacabin_1 := 0 in  (* L149 *)
          let '(furnishing_wt_additional, dfurnishing_wt_additional_dgross_wt_init,
              dfurnishing_wt_additional_dcabin_width, dfurnishing_wt_additional_dfus_len,
              dfurnishing_wt_additional_dscaler, dfurnishing_wt_additional_dacabin, cabin_len, agalley,
              furnishing_wt_2, dfurnishing_wt_dgross_wt_init_2, dfurnishing_wt_dcabin_width_2,
              dfurnishing_wt_dfus_len_2, dfurnishing_wt_dscaler_2, dfurnishing_wt_dacabin_2, CPX) :=  (* L151 *)
            if leb 50 PAX then
              let '(furnishing_wt_additional, dfurnishing_wt_additional_dgross_wt_init,
                  dfurnishing_wt_additional_dcabin_width, dfurnishing_wt_additional_dfus_len,
                  dfurnishing_wt_additional_dscaler, dfurnishing_wt_additional_dacabin) :=  (* L152 *)
                if empirical then
                  let furnishing_wt_additional := scaler * PAX in  (* L153 *)
                  let dfurnishing_wt_additional_dgross_wt_init := 0 in  (* L154 *)
                  let dfurnishing_wt_additional_dcabin_width := 0 in  (* L155 *)
                  let dfurnishing_wt_additional_dfus_len := 0 in  (* L156 *)
                  let dfurnishing_wt_additional_dscaler := PAX in  (* L157 *)
                  let dfurnishing_wt_additional_dacabin := 0 in  (* L158 *)
                  (furnishing_wt_additional, dfurnishing_wt_additional_dgross_wt_init,
                      dfurnishing_wt_additional_dcabin_width, dfurnishing_wt_additional_dfus_len,
                      dfurnishing_wt_additional_dscaler, dfurnishing_wt_additional_dacabin)
                else
                  let furnishing_wt_additional := 1184 / 10 * PAX - 4190 in  (* L160 *)
                  let dfurnishing_wt_additional_dgross_wt_init := 0 in  (* L161 *)
                  let dfurnishing_wt_additional_dcabin_width := 0 in  (* L162 *)
                  let dfurnishing_wt_additional_dfus_len := 0 in  (* L163 *)
                  let dfurnishing_wt_additional_dscaler := 0 in  (* L164 *)
                  let dfurnishing_wt_additional_dacabin := 0 in  (* L165 *)
                  (furnishing_wt_additional, dfurnishing_wt_additional_dgross_wt_init,
                      dfurnishing_wt_additional_dcabin_width, dfurnishing_wt_additional_dfus_len,
                      dfurnishing_wt_additional_dscaler, dfurnishing_wt_additional_dacabin) in
              let cabin_len := 75 / 100 * fus_len in  (* L166 *)
              let agalley := 5 / 10 * PAX in  (* L167 *)
              let furnishing_wt_2 := furnishing_wt_additional + num_pilots * (1 + cabin_width / 12) * 90 +
                  num_flight_attendants * 30 + lavatories * 240 + agalley * 12 + 15 / 10 * cabin_len * cabin_width *
                  PI / 2 + 5 / 10 * acabin in  (* L168 *)
              let dfurnishing_wt_dgross_wt_init_2 := dfurnishing_wt_additional_dgross_wt_init + 0 in  (* L177 *)
              let dfurnishing_wt_dcabin_width_2 := dfurnishing_wt_additional_dcabin_width + num_pilots * (1 / 12) * 90
                  + 15 / 10 * (75 / 100) * fus_len * PI / 2 in  (* L178 *)
              let dfurnishing_wt_dfus_len_2 := dfurnishing_wt_additional_dfus_len + 15 / 10 * (75 / 100) * cabin_width
                  * PI / 2 in  (* L183 *)
              let dfurnishing_wt_dscaler_2 := dfurnishing_wt_additional_dscaler + 0 in  (* L186 *)
              let dfurnishing_wt_dacabin_2 := dfurnishing_wt_additional_dacabin + 5 / 10 in  (* L187 *)
              (furnishing_wt_additional, dfurnishing_wt_additional_dgross_wt_init,
                  dfurnishing_wt_additional_dcabin_width, dfurnishing_wt_additional_dfus_len,
                  dfurnishing_wt_additional_dscaler, dfurnishing_wt_additional_dacabin, cabin_len, agalley,
                  furnishing_wt_2, dfurnishing_wt_dgross_wt_init_2, dfurnishing_wt_dcabin_width_2,
                  dfurnishing_wt_dfus_len_2, dfurnishing_wt_dscaler_2, dfurnishing_wt_dacabin_2, 0)
            else
              let CPX_lin := 28 + 10516 / 1000 * (cabin_width - 5667 / 1000) in  (* L189 *)
              let CPX := 28 * sigmoidX1 (CPX_lin / 28) 1 (- 1 / 100) + CPX_lin * sigmoidX1 (CPX_lin / 28) 1 (1 / 100)
                  * sigmoidX1 (CPX_lin / 62) 1 (- 1 / 100) + 62 * sigmoidX1 (CPX_lin / 62) 1 (1 / 100) in  (* L190 *)
              let furnishing_wt_2 := CPX * PAX + 310 in  (* L195 *)
              let dCPX_lin_dcabin_width := 10516 / 1000 in  (* L197 *)
              let dCPX_dcabin_width_2 := 1 * dSigmoidX1 (CPX_lin / 28) 1 (1 / 100) * - dCPX_lin_dcabin_width +
                  dCPX_lin_dcabin_width * CPX_lin * sigmoidX1 (CPX_lin / 28) 1 (1 / 100) * sigmoidX1 (CPX_lin / 62) 1
                  (- 1 / 100) + CPX_lin * dSigmoidX1 (CPX_lin / 28) 1 (1 / 100) / 28 * sigmoidX1 (CPX_lin / 62) 1 (- 1
                  / 100) * dCPX_lin_dcabin_width + CPX_lin * sigmoidX1 (CPX_lin / 28) 1 (1 / 100) * dSigmoidX1
                  (CPX_lin / 62) 1 (- 1 / 100) / 62 * - dCPX_lin_dcabin_width + 1 * dSigmoidX1 (CPX_lin / 62) 1 (1 /
                  100) * dCPX_lin_dcabin_width in  (* L198 *)
              let dfurnishing_wt_dcabin_width_2 := PAX * dCPX_dcabin_width_2 in  (* L217 *)
              let dfurnishing_wt_dgross_wt_init_2 := 0 in  (* L218 *)
              let dfurnishing_wt_dfus_len_2 := 0 in  (* L219 *)
              let dfurnishing_wt_dscaler_2 := 0 in  (* L220 *)
              let dfurnishing_wt_dacabin_2 := 0 in  (* L221 *)
              (0, 0, 0, 0, 0, 0, 0, 0, furnishing_wt_2, dfurnishing_wt_dgross_wt_init_2,
                  dfurnishing_wt_dcabin_width_2, dfurnishing_wt_dfus_len_2, dfurnishing_wt_dscaler_2,
                  dfurnishing_wt_dacabin_2, CPX) in
          let smoother := sigmoidX1 gross_wt_init 10000 (1 / 100) in  (* L223 *)
          let dsmoother_dgross_wt_init := dSigmoidX1 gross_wt_init 10000 (1 / 100) in  (* L224 *)
          let furnishing_wt := (1 - smoother) * furnishing_wt_1 + (if smooth then 1 else 0) * furnishing_wt_2 in  (* L225 *)
          let dfurnishing_wt_dcabin_width := (1 - smoother) * dfurnishing_wt_dcabin_width_1 + smoother *
              dfurnishing_wt_dcabin_width_2 in  (* L226 *)
          let dfurnishing_wt_dgross_wt_init := - dsmoother_dgross_wt_init * furnishing_wt_1 + (1 - smoother) *
              dfurnishing_wt_dgross_wt_init_1 + dsmoother_dgross_wt_init * furnishing_wt_2 + smoother *
              dfurnishing_wt_dgross_wt_init_2 in  (* L229 *)
          let dfurnishing_wt_dfus_len := (1 - smoother) * dfurnishing_wt_dfus_len_1 + smoother *
              dfurnishing_wt_dfus_len_2 in  (* L235 *)
          let dfurnishing_wt_dscaler := (1 - smoother) * dfurnishing_wt_dscaler_1 + smoother *
              dfurnishing_wt_dscaler_2 in  (* L238 *)
          let dfurnishing_wt_dacabin := (1 - smoother) * dfurnishing_wt_dacabin_1 + smoother *
              dfurnishing_wt_dacabin_2 in  (* L241 *)
          let sm_fac := d_smooth_max1 furnishing_wt 30 mu in  (* L245 *)
          let dfurnishing_wt_dcabin_width := sm_fac * dfurnishing_wt_dcabin_width in  (* L246 *)
          let dfurnishing_wt_dgross_wt_init := sm_fac * dfurnishing_wt_dgross_wt_init in  (* L247 *)
          let dfurnishing_wt_dfus_len := sm_fac * dfurnishing_wt_dfus_len in  (* L248 *)
          let dfurnishing_wt_dscaler := sm_fac * dfurnishing_wt_dscaler in  (* L249 *)
          let dfurnishing_wt_dacabin := sm_fac * dfurnishing_wt_dacabin in  (* L250 *)
          (furnishing_wt, dfurnishing_wt_dcabin_width, dfurnishing_wt_dgross_wt_init, dfurnishing_wt_dfus_len,
              dfurnishing_wt_dscaler, dfurnishing_wt_dacabin)
        else
          let '(furnishing_wt, dfurnishing_wt_dgross_wt_init, dfurnishing_wt_dcabin_width, dfurnishing_wt_dfus_len,
              dfurnishing_wt_dscaler, dfurnishing_wt_dacabin) :=  (* L252 *)
            if leb gross_wt_init 10000 then
              let furnishing_wt := 65 / 1000 * gross_wt_init - 59 in  (* L253 *)
              let dfurnishing_wt_dgross_wt_init := 65 / 1000 in  (* L254 *)
              let dfurnishing_wt_dcabin_width := 0 in  (* L255 *)
              let dfurnishing_wt_dfus_len := 0 in  (* L256 *)
              let dfurnishing_wt_dscaler := 0 in  (* L257 *)
              let dfurnishing_wt_dacabin := 0 in  (* L258 *)
              (furnishing_wt, dfurnishing_wt_dgross_wt_init, dfurnishing_wt_dcabin_width, dfurnishing_wt_dfus_len,
                  dfurnishing_wt_dscaler, dfurnishing_wt_dacabin)
            else
              let '(furnishing_wt, dfurnishing_wt_dgross_wt_init, dfurnishing_wt_dcabin_width,
                  dfurnishing_wt_dfus_len, dfurnishing_wt_dscaler, dfurnishing_wt_dacabin) :=  (* L260 *)
                if leb 50 PAX then
                  let '(furnishing_wt_additional, dfurnishing_wt_additional_dgross_wt_init,
                      dfurnishing_wt_additional_dcabin_width, dfurnishing_wt_additional_dfus_len,
                      dfurnishing_wt_additional_dscaler, dfurnishing_wt_additional_dacabin) :=  (* L261 *)
                    if empirical then
                      let furnishing_wt_additional := scaler * PAX in  (* L262 *)
                      let dfurnishing_wt_additional_dgross_wt_init := 0 in  (* L263 *)
                      let dfurnishing_wt_additional_dcabin_width := 0 in  (* L264 *)
                      let dfurnishing_wt_additional_dfus_len := 0 in  (* L265 *)
                      let dfurnishing_wt_additional_dscaler := PAX in  (* L266 *)
                      let dfurnishing_wt_additional_dacabin := 0 in  (* L267 *)
                      (furnishing_wt_additional, dfurnishing_wt_additional_dgross_wt_init,
                          dfurnishing_wt_additional_dcabin_width, dfurnishing_wt_additional_dfus_len,
                          dfurnishing_wt_additional_dscaler, dfurnishing_wt_additional_dacabin)
                    else
                      let furnishing_wt_additional := 1184 / 10 * PAX - 4190 in  (* L269 *)
                      let dfurnishing_wt_additional_dgross_wt_init := 0 in  (* L270 *)
                      let dfurnishing_wt_additional_dcabin_width := 0 in  (* L271 *)
                      let dfurnishing_wt_additional_dfus_len := 0 in  (* L272 *)
                      let dfurnishing_wt_additional_dscaler := 0 in  (* L273 *)
                      let dfurnishing_wt_additional_dacabin := 0 in  (* L274 *)
                      (furnishing_wt_additional, dfurnishing_wt_additional_dgross_wt_init,
                          dfurnishing_wt_additional_dcabin_width, dfurnishing_wt_additional_dfus_len,
                          dfurnishing_wt_additional_dscaler, dfurnishing_wt_additional_dacabin) in
                  let cabin_len := 75 / 100 * fus_len in  (* L275 *)
                  let agalley := 5 / 10 * PAX in  (* L276 *)
                  let furnishing_wt := furnishing_wt_additional + num_pilots * (1 + cabin_width / 12) * 90 +
                      num_flight_attendants * 30 + lavatories * 240 + agalley * 12 + 15 / 10 * cabin_len * cabin_width
                      * PI / 2 + 5 / 10 * acabin in  (* L277 *)
                  let dfurnishing_wt_dgross_wt_init := dfurnishing_wt_additional_dgross_wt_init + 0 in  (* L286 *)
                  let dfurnishing_wt_dcabin_width := dfurnishing_wt_additional_dcabin_width + num_pilots * (1 / 12) *
                      90 + 15 / 10 * (75 / 100) * fus_len * PI / 2 in  (* L287 *)
                  let dfurnishing_wt_dfus_len := dfurnishing_wt_additional_dfus_len + 15 / 10 * (75 / 100) *
                      cabin_width * PI / 2 in  (* L292 *)
                  let dfurnishing_wt_dscaler := dfurnishing_wt_additional_dscaler + 0 in  (* L295 *)
                  let dfurnishing_wt_dacabin := dfurnishing_wt_additional_dacabin + 5 / 10 in  (* L296 *)
                  (furnishing_wt, dfurnishing_wt_dgross_wt_init, dfurnishing_wt_dcabin_width, dfurnishing_wt_dfus_len,
                      dfurnishing_wt_dscaler, dfurnishing_wt_dacabin)
                else
                  let CPX_lin := 28 + 10516 / 1000 * (cabin_width - 5667 / 1000) in  (* L298 *)
                  let CPX :=  (* L299 *)
                    if leb cabin_width (5667 / 1000) then
                      let CPX := 28 in  (* L300 *)
                      CPX
                    else
                      let CPX :=  (* L301 *)
                        if ltb (89 / 10) cabin_width then
                          let CPX := 62 in  (* L302 *)
                          CPX
                        else
                          0 in
                      CPX in
                  let furnishing_wt := CPX * PAX + 310 in  (* L303 *)
                  let dCPX_lin_dcabin_width := 10516 / 1000 in  (* L305 *)
                  let dCPX_dcabin_width :=  (* L306 *)
                    if leb cabin_width (5667 / 1000) then
                      let dCPX_dcabin_width := 0 in  (* L307 *)
                      dCPX_dcabin_width
                    else
                      0 in
                  let dCPX_dcabin_width :=  (* L308 *)
                    if ltb (89 / 10) cabin_width then
                      let dCPX_dcabin_width := 0 in  (* L309 *)
                      dCPX_dcabin_width
                    else
                      dCPX_dcabin_width in
                  let dfurnishing_wt_dcabin_width := PAX * dCPX_dcabin_width in  (* L311 *)
                  let dfurnishing_wt_dgross_wt_init := 0 in  (* L312 *)
                  let dfurnishing_wt_dfus_len := 0 in  (* L313 *)
                  let dfurnishing_wt_dscaler := 0 in  (* L314 *)
                  let dfurnishing_wt_dacabin := 0 in  (* L315 *)
                  (furnishing_wt, dfurnishing_wt_dgross_wt_init, dfurnishing_wt_dcabin_width, dfurnishing_wt_dfus_len,
                      dfurnishing_wt_dscaler, dfurnishing_wt_dacabin) in
              (furnishing_wt, dfurnishing_wt_dgross_wt_init, dfurnishing_wt_dcabin_width, dfurnishing_wt_dfus_len,
                  dfurnishing_wt_dscaler, dfurnishing_wt_dacabin) in
          let '(dfurnishing_wt_dcabin_width, dfurnishing_wt_dgross_wt_init, dfurnishing_wt_dfus_len,
              dfurnishing_wt_dscaler, dfurnishing_wt_dacabin) :=  (* L317 *)
            if ltb furnishing_wt 30 then
              let dfurnishing_wt_dcabin_width := 0 in  (* L318 *)
              let dfurnishing_wt_dgross_wt_init := 0 in  (* L319 *)
              let dfurnishing_wt_dfus_len := 0 in  (* L320 *)
              let dfurnishing_wt_dscaler := 0 in  (* L321 *)
              let dfurnishing_wt_dacabin := 0 in  (* L322 *)
              (dfurnishing_wt_dcabin_width, dfurnishing_wt_dgross_wt_init, dfurnishing_wt_dfus_len,
                  dfurnishing_wt_dscaler, dfurnishing_wt_dacabin)
            else
              (dfurnishing_wt_dcabin_width, dfurnishing_wt_dgross_wt_init, dfurnishing_wt_dfus_len,
                  dfurnishing_wt_dscaler, dfurnishing_wt_dacabin) in
          (furnishing_wt, dfurnishing_wt_dcabin_width, dfurnishing_wt_dgross_wt_init, dfurnishing_wt_dfus_len,
              dfurnishing_wt_dscaler, dfurnishing_wt_dacabin) in
      (dfurnishing_wt_dcabin_width, dfurnishing_wt_dgross_wt_init, dfurnishing_wt_dfus_len, dfurnishing_wt_dscaler,
          dfurnishing_wt_dacabin) in  (* L396 *)
  let d_Furnishings_MASS__Design_GROSS_MASS := dfurnishing_wt_dgross_wt_init in  (* L406 *)
  let d_Furnishings_MASS__Fuselage_AVG_DIAMETER := dfurnishing_wt_dcabin_width / GRAV_ENGLISH_LBM in  (* L409 *)
  let d_Furnishings_MASS__Fuselage_LENGTH := dfurnishing_wt_dfus_len / GRAV_ENGLISH_LBM in  (* L412 *)
  let d_Furnishings_MASS__Furnishings_MASS_SCALER := dfurnishing_wt_dscaler / GRAV_ENGLISH_LBM in  (* L415 *)
  let d_Furnishings_MASS__Fuselage_CABIN_AREA := dfurnishing_wt_dacabin / GRAV_ENGLISH_LBM in  (* L418 *)
  [(Aircraft_Furnishings_MASS, Aircraft_Design_GROSS_MASS, d_Furnishings_MASS__Design_GROSS_MASS);
   (Aircraft_Furnishings_MASS, Aircraft_Fuselage_AVG_DIAMETER, d_Furnishings_MASS__Fuselage_AVG_DIAMETER);
   (Aircraft_Furnishings_MASS, Aircraft_Fuselage_LENGTH, d_Furnishings_MASS__Fuselage_LENGTH);
   (Aircraft_Furnishings_MASS, Aircraft_Furnishings_MASS_SCALER, d_Furnishings_MASS__Furnishings_MASS_SCALER);
   (Aircraft_Furnishings_MASS, Aircraft_Fuselage_CABIN_AREA, d_Furnishings_MASS__Fuselage_CABIN_AREA)].

(** Inputs, outputs and declared partials: /repo/aviary/subsystems/mass/gasp_based/furnishings.py L345-363 *)
Definition FurnishingMass (op : options) : comp := {|
  c_ins := [Aircraft_Design_GROSS_MASS;
            Aircraft_Fuselage_AVG_DIAMETER;
            Aircraft_Fuselage_LENGTH;
            Aircraft_Furnishings_MASS_SCALER;
            Aircraft_Fuselage_CABIN_AREA];
  c_outs := [Aircraft_Furnishings_MASS];
  c_decl := [(Aircraft_Furnishings_MASS, Aircraft_Fuselage_AVG_DIAMETER, 0);
             (Aircraft_Furnishings_MASS, Aircraft_Design_GROSS_MASS, 0);
             (Aircraft_Furnishings_MASS, Aircraft_Furnishings_MASS_SCALER, 0);
             (Aircraft_Furnishings_MASS, Aircraft_Fuselage_LENGTH, 0);
             (Aircraft_Furnishings_MASS, Aircraft_Fuselage_CABIN_AREA, 0)];
  c_run := FurnishingMass_compute op; c_jac := FurnishingMass_partials op |}.

(** BWBFurnishingMass.compute, /repo/aviary/subsystems/mass/gasp_based/furnishings.py L455-472 (one engine type or one node) *)
Definition BWBFurnishingMass_compute (op : options) (e : env) : list (string * R) :=
  let PAX := on op Aircraft_CrewPayload_Design_NUM_PASSENGERS in  (* L456 *)
  let smooth := ob op Aircraft_Design_SMOOTH_MASS_DISCONTINUITIES in  (* L457 *)
  let empirical := ob op Aircraft_Furnishings_USE_EMPIRICAL_EQUATION in  (* L458 *)
  let en_type := oe op Aircraft_Engine_TYPE in  (* L459 *)
  let mu := on op v_mu in  (* L460 *)
  let gross_wt_init := e Aircraft_Design_GROSS_MASS * GRAV_ENGLISH_LBM in  (* L462 *)
  let fus_len := e Aircraft_Fuselage_LENGTH in  (* L463 *)
  let cabin_width := e Aircraft_Fuselage_HYDRAULIC_DIAMETER in  (* L464 *)
  let scaler := e Aircraft_Furnishings_MASS_SCALER in  (* L465 *)
  let acabin := e Aircraft_Fuselage_CABIN_AREA in  (* L466 *)
  let furnishing_wt := (* common_compute, L59-132 *) let engine_type := en_type in 
      let num_pilots := get_num_of_pilots PAX engine_type in  (* L62 *)
      let num_flight_attendants := get_num_of_flight_attendent PAX in  (* L63 *)
      let lavatories := get_num_of_lavatories PAX in  (* L64 *)
      let furnishing_wt :=  (* L66 *)
        if smooth then
          let furnishing_wt_1 := 65 / 1000 * gross_wt_init - 59 in  (* L68 *)
          let '(furnishing_wt_additional, cabin_len, agalley, furnishing_wt_2, CPX) :=  (* L70 *)
            if leb 50 PAX then
              let furnishing_wt_additional :=  (* L71 *)
                if empirical then
                  let furnishing_wt_additional := scaler * PAX in  (* L73 *)
                  furnishing_wt_additional
                else
                  let furnishing_wt_additional := 1184 / 10 * PAX - 4190 in  (* L76 *)
                  furnishing_wt_additional in
              let cabin_len := 75 / 100 * fus_len in  (* L78 *)
              let agalley := 5 / 10 * PAX in  (* L79 *)
              let furnishing_wt_2 := furnishing_wt_additional + num_pilots * (1 + cabin_width / 12) * 90 +
                  num_flight_attendants * 30 + lavatories * 240 + agalley * 12 + 15 / 10 * cabin_len * cabin_width *
                  PI / 2 + 5 / 10 * acabin in  (* L80 *)
              (furnishing_wt_additional, cabin_len, agalley, furnishing_wt_2, 0)
            else
              let CPX_lin := 28 + 10516 / 1000 * (cabin_width - 5667 / 1000) in  (* L90 *)
              let CPX := 28 * sigmoidX1 (CPX_lin / 28) 1 (- 1 / 100) + CPX_lin * sigmoidX1 (CPX_lin / 28) 1 (1 / 100)
                  * sigmoidX1 (CPX_lin / 62) 1 (- 1 / 100) + 62 * sigmoidX1 (CPX_lin / 62) 1 (1 / 100) in  (* L91 *)
              let furnishing_wt_2 := CPX * PAX + 310 in  (* L96 *)
              (0, 0, 0, furnishing_wt_2, CPX) in
          let smoother := sigmoidX1 gross_wt_init 10000 (1 / 100) in  (* L97 *)
          let furnishing_wt := (1 - smoother) * furnishing_wt_1 + (if smooth then 1 else 0) * furnishing_wt_2 in  (* L98 *)
          let furnishing_wt := smooth_max1 furnishing_wt 30 mu in  (* L99 *)
          furnishing_wt
        else
          let furnishing_wt :=  (* L101 *)
            if leb gross_wt_init 10000 then
              let furnishing_wt := 65 / 1000 * gross_wt_init - 59 in  (* L102 *)
              furnishing_wt
            else
              let furnishing_wt :=  (* L104 *)
                if leb 50 PAX then
                  let furnishing_wt_additional :=  (* L105 *)
                    if empirical then
                      let furnishing_wt_additional := scaler * PAX in  (* L107 *)
                      furnishing_wt_additional
                    else
                      let furnishing_wt_additional := 1184 / 10 * PAX - 4190 in  (* L110 *)
                      furnishing_wt_additional in
                  let cabin_len := 75 / 100 * fus_len in  (* L112 *)
                  let agalley := 5 / 10 * PAX in  (* L113 *)
                  let furnishing_wt := furnishing_wt_additional + num_pilots * (1 + cabin_width / 12) * 90 +
                      num_flight_attendants * 30 + lavatories * 240 + agalley * 12 + 15 / 10 * cabin_len * cabin_width
                      * PI / 2 + 5 / 10 * acabin in  (* L114 *)
                  furnishing_wt
                else
                  let CPX_lin := 28 + 10516 / 1000 * (cabin_width - 5667 / 1000) in  (* L124 *)
                  let CPX :=  (* L125 *)
                    if leb cabin_width (5667 / 1000) then
                      let CPX := 28 in  (* L126 *)
                      CPX
                    else
                      let CPX :=  (* L127 *)
                        if ltb (89 / 10) cabin_width then
                          let CPX := 62 in  (* L128 *)
                          CPX
                        else
                          0 in
                      CPX in
                  let furnishing_wt := CPX * PAX + 310 in  (* L129 *)
                  furnishing_wt in
              furnishing_wt in
          let furnishing_wt := Rmax furnishing_wt 30 in  (* L130 *)
          furnishing_wt in
      furnishing_wt in  (* L468 *)
  let o_Furnishings_MASS := furnishing_wt / GRAV_ENGLISH_LBM in  (* L472 *)
  [(Aircraft_Furnishings_MASS, o_Furnishings_MASS)].

(** BWBFurnishingMass.compute_partials, /repo/aviary/subsystems/mass/gasp_based/furnishings.py L474-511 *)
Definition BWBFurnishingMass_partials (op : options) (e : env) : list (string * string * R) :=
  let PAX := on op Aircraft_CrewPayload_Design_NUM_PASSENGERS in  (* L475 *)
  let smooth := ob op Aircraft_Design_SMOOTH_MASS_DISCONTINUITIES in  (* L476 *)
  let empirical := ob op Aircraft_Furnishings_USE_EMPIRICAL_EQUATION in  (* L477 *)
  let en_type := oe op Aircraft_Engine_TYPE in  (* L478 *)
  let mu := on op v_mu in  (* L479 *)
  let gross_wt_init := e Aircraft_Design_GROSS_MASS * GRAV_ENGLISH_LBM in  (* L481 *)
  let fus_len := e Aircraft_Fuselage_LENGTH in  (* L482 *)
  let cabin_width := e Aircraft_Fuselage_HYDRAULIC_DIAMETER in  (* L483 *)
  let scaler := e Aircraft_Furnishings_MASS_SCALER in  (* L484 *)
  let acabin := e Aircraft_Fuselage_CABIN_AREA in  (* L485 *)
  let '(dfurnishing_wt_dcabin_width, dfurnishing_wt_dgross_wt_init, dfurnishing_wt_dfus_len, dfurnishing_wt_dscaler,
      dfurnishing_wt_dacabin) := (* common_compute_partials, L135-330 *) let engine_type := en_type in 
      let num_pilots := get_num_of_pilots PAX engine_type in  (* L138 *)
      let num_flight_attendants := get_num_of_flight_attendent PAX in  (* L139 *)
      let lavatories := get_num_of_lavatories PAX in  (* L140 *)
      let '(furnishing_wt, dfurnishing_wt_dcabin_width, dfurnishing_wt_dgross_wt_init, dfurnishing_wt_dfus_len,
          dfurnishing_wt_dscaler, dfurnishing_wt_dacabin) :=  (* L142 *)
        if smooth then
          let furnishing_wt_1 := 65 / 1000 * gross_wt_init - 59 in  (* L144 *)
          let dfurnishing_wt_dgross_wt_init_1 := 65 / 1000 in  (* L145 *)
          let dfurnishing_wt_dcabin_width_1 := 0 in  (* L146 *)
          let dfurnishing_wt_dfus_len_1 := 0 in  (* L147 *)
          let dfurnishing_wt_dscaler_1 := 0 in  (* L148 *)
          let dfurnishing_wt_dacabin_1 := 0 in  (* L149 *)
          let '(furnishing_wt_additional, dfurnishing_wt_additional_dgross_wt_init,
              dfurnishing_wt_additional_dcabin_width, dfurnishing_wt_additional_dfus_len,
              dfurnishing_wt_additional_dscaler, dfurnishing_wt_additional_dacabin, cabin_len, agalley,
              furnishing_wt_2, dfurnishing_wt_dgross_wt_init_2, dfurnishing_wt_dcabin_width_2,
              dfurnishing_wt_dfus_len_2, dfurnishing_wt_dscaler_2, dfurnishing_wt_dacabin_2, CPX) :=  (* L151 *)
            if leb 50 PAX then
              let '(furnishing_wt_additional, dfurnishing_wt_additional_dgross_wt_init,
                  dfurnishing_wt_additional_dcabin_width, dfurnishing_wt_additional_dfus_len,
                  dfurnishing_wt_additional_dscaler, dfurnishing_wt_additional_dacabin) :=  (* L152 *)
                if empirical then
                  let furnishing_wt_additional := scaler * PAX in  (* L153 *)
                  let dfurnishing_wt_additional_dgross_wt_init := 0 in  (* L154 *)
                  let dfurnishing_wt_additional_dcabin_width := 0 in  (* L155 *)
                  let dfurnishing_wt_additional_dfus_len := 0 in  (* L156 *)
                  let dfurnishing_wt_additional_dscaler := PAX in  (* L157 *)
                  let dfurnishing_wt_additional_dacabin := 0 in  (* L158 *)
                  (furnishing_wt_additional, dfurnishing_wt_additional_dgross_wt_init,
                      dfurnishing_wt_additional_dcabin_width, dfurnishing_wt_additional_dfus_len,
                      dfurnishing_wt_additional_dscaler, dfurnishing_wt_additional_dacabin)
                else
                  let furnishing_wt_additional := 1184 / 10 * PAX - 4190 in  (* L160 *)
                  let dfurnishing_wt_additional_dgross_wt_init := 0 in  (* L161 *)
                  let dfurnishing_wt_additional_dcabin_width := 0 in  (* L162 *)
                  let dfurnishing_wt_additional_dfus_len := 0 in  (* L163 *)
                  let dfurnishing_wt_additional_dscaler := 0 in  (* L164 *)
                  let dfurnishing_wt_additional_dacabin := 0 in  (* L165 *)
                  (furnishing_wt_additional, dfurnishing_wt_additional_dgross_wt_init,
                      dfurnishing_wt_additional_dcabin_width, dfurnishing_wt_additional_dfus_len,
                      dfurnishing_wt_additional_dscaler, dfurnishing_wt_additional_dacabin) in
              let cabin_len := 75 / 100 * fus_len in  (* L166 *)
              let agalley := 5 / 10 * PAX in  (* L167 *)
              let furnishing_wt_2 := furnishing_wt_additional + num_pilots * (1 + cabin_width / 12) * 90 +
                  num_flight_attendants * 30 + lavatories * 240 + agalley * 12 + 15 / 10 * cabin_len * cabin_width *
                  PI / 2 + 5 / 10 * acabin in  (* L168 *)
              let dfurnishing_wt_dgross_wt_init_2 := dfurnishing_wt_additional_dgross_wt_init + 0 in  (* L177 *)
              let dfurnishing_wt_dcabin_width_2 := dfurnishing_wt_additional_dcabin_width + num_pilots * (1 / 12) * 90
                  + 15 / 10 * (75 / 100) * fus_len * PI / 2 in  (* L178 *)
              let dfurnishing_wt_dfus_len_2 := dfurnishing_wt_additional_dfus_len + 15 / 10 * (75 / 100) * cabin_width
                  * PI / 2 in  (* L183 *)
              let dfurnishing_wt_dscaler_2 := dfurnishing_wt_additional_dscaler + 0 in  (* L186 *)
              let dfurnishing_wt_dacabin_2 := dfurnishing_wt_additional_dacabin + 5 / 10 in  (* L187 *)
              (furnishing_wt_additional, dfurnishing_wt_additional_dgross_wt_init,
                  dfurnishing_wt_additional_dcabin_width, dfurnishing_wt_additional_dfus_len,
                  dfurnishing_wt_additional_dscaler, dfurnishing_wt_additional_dacabin, cabin_len, agalley,
                  furnishing_wt_2, dfurnishing_wt_dgross_wt_init_2, dfurnishing_wt_dcabin_width_2,
                  dfurnishing_wt_dfus_len_2, dfurnishing_wt_dscaler_2, dfurnishing_wt_dacabin_2, 0)
            else
              let CPX_lin := 28 + 10516 / 1000 * (cabin_width - 5667 / 1000) in  (* L189 *)
              let CPX := 28 * sigmoidX1 (CPX_lin / 28) 1 (- 1 / 100) + CPX_lin * sigmoidX1 (CPX_lin / 28) 1 (1 / 100)
                  * sigmoidX1 (CPX_lin / 62) 1 (- 1 / 100) + 62 * sigmoidX1 (CPX_lin / 62) 1 (1 / 100) in  (* L190 *)
              let furnishing_wt_2 := CPX * PAX + 310 in  (* L195 *)
              let dCPX_lin_dcabin_width := 10516 / 1000 in  (* L197 *)
              let dCPX_dcabin_width_2 := 1 * dSigmoidX1 (CPX_lin / 28) 1 (1 / 100) * - dCPX_lin_dcabin_width +
                  dCPX_lin_dcabin_width * CPX_lin * sigmoidX1 (CPX_lin / 28) 1 (1 / 100) * sigmoidX1 (CPX_lin / 62) 1
                  (- 1 / 100) + CPX_lin * dSigmoidX1 (CPX_lin / 28) 1 (1 / 100) / 28 * sigmoidX1 (CPX_lin / 62) 1 (- 1
                  / 100) * dCPX_lin_dcabin_width + CPX_lin * sigmoidX1 (CPX_lin / 28) 1 (1 / 100) * dSigmoidX1
                  (CPX_lin / 62) 1 (- 1 / 100) / 62 * - dCPX_lin_dcabin_width + 1 * dSigmoidX1 (CPX_lin / 62) 1 (1 /
                  100) * dCPX_lin_dcabin_width in  (* L198 *)
              let dfurnishing_wt_dcabin_width_2 := PAX * dCPX_dcabin_width_2 in  (* L217 *)
              let dfurnishing_wt_dgross_wt_init_2 := 0 in  (* L218 *)
              let dfurnishing_wt_dfus_len_2 := 0 in  (* L219 *)
              let dfurnishing_wt_dscaler_2 := 0 in  (* L220 *)
              let dfurnishing_wt_dacabin_2 := 0 in  (* L221 *)
              (0, 0, 0, 0, 0, 0, 0, 0, furnishing_wt_2, dfurnishing_wt_dgross_wt_init_2,
                  dfurnishing_wt_dcabin_width_2, dfurnishing_wt_dfus_len_2, dfurnishing_wt_dscaler_2,
                  dfurnishing_wt_dacabin_2, CPX) in
          let smoother := sigmoidX1 gross_wt_init 10000 (1 / 100) in  (* L223 *)
          let dsmoother_dgross_wt_init := dSigmoidX1 gross_wt_init 10000 (1 / 100) in  (* L224 *)
          let furnishing_wt := (1 - smoother) * furnishing_wt_1 + (if smooth then 1 else 0) * furnishing_wt_2 in  (* L225 *)
          let dfurnishing_wt_dcabin_width := (1 - smoother) * dfurnishing_wt_dcabin_width_1 + smoother *
              dfurnishing_wt_dcabin_width_2 in  (* L226 *)
          let dfurnishing_wt_dgross_wt_init := - dsmoother_dgross_wt_init * furnishing_wt_1 + (1 - smoother) *
              dfurnishing_wt_dgross_wt_init_1 + dsmoother_dgross_wt_init * furnishing_wt_2 + smoother *
              dfurnishing_wt_dgross_wt_init_2 in  (* L229 *)
          let dfurnishing_wt_dfus_len := (1 - smoother) * dfurnishing_wt_dfus_len_1 + smoother *
              dfurnishing_wt_dfus_len_2 in  (* L235 *)
          let dfurnishing_wt_dscaler := (1 - smoother) * dfurnishing_wt_dscaler_1 + smoother *
              dfurnishing_wt_dscaler_2 in  (* L238 *)
          let dfurnishing_wt_dacabin := (1 - smoother) * dfurnishing_wt_dacabin_1 + smoother *
              dfurnishing_wt_dacabin_2 in  (* L241 *)
          let sm_fac := d_smooth_max1 furnishing_wt 30 mu in  (* L245 *)
          let dfurnishing_wt_dcabin_width := sm_fac * dfurnishing_wt_dcabin_width in  (* L246 *)
          let dfurnishing_wt_dgross_wt_init := sm_fac * dfurnishing_wt_dgross_wt_init in  (* L247 *)
          let dfurnishing_wt_dfus_len := sm_fac * dfurnishing_wt_dfus_len in  (* L248 *)
          let dfurnishing_wt_dscaler := sm_fac * dfurnishing_wt_dscaler in  (* L249 *)
          let dfurnishing_wt_dacabin := sm_fac * dfurnishing_wt_dacabin in  (* L250 *)
          (furnishing_wt, dfurnishing_wt_dcabin_width, dfurnishing_wt_dgross_wt_init, dfurnishing_wt_dfus_len,
              dfurnishing_wt_dscaler, dfurnishing_wt_dacabin)
        else
          let '(furnishing_wt, dfurnishing_wt_dgross_wt_init, dfurnishing_wt_dcabin_width, dfurnishing_wt_dfus_len,
              dfurnishing_wt_dscaler, dfurnishing_wt_dacabin) :=  (* L252 *)
            if leb gross_wt_init 10000 then
              let furnishing_wt := 65 / 1000 * gross_wt_init - 59 in  (* L253 *)
              let dfurnishing_wt_dgross_wt_init := 65 / 1000 in  (* L254 *)
              let dfurnishing_wt_dcabin_width := 0 in  (* L255 *)
              let dfurnishing_wt_dfus_len := 0 in  (* L256 *)
              let dfurnishing_wt_dscaler := 0 in  (* L257 *)
              let dfurnishing_wt_dacabin := 0 in  (* L258 *)
              (furnishing_wt, dfurnishing_wt_dgross_wt_init, dfurnishing_wt_dcabin_width, dfurnishing_wt_dfus_len,
                  dfurnishing_wt_dscaler, dfurnishing_wt_dacabin)
            else
              let '(furnishing_wt, dfurnishing_wt_dgross_wt_init, dfurnishing_wt_dcabin_width,
                  dfurnishing_wt_dfus_len, dfurnishing_wt_dscaler, dfurnishing_wt_dacabin) :=  (* L260 *)
                if leb 50 PAX then
                  let '(furnishing_wt_additional, dfurnishing_wt_additional_dgross_wt_init,
                      dfurnishing_wt_additional_dcabin_width, dfurnishing_wt_additional_dfus_len,
                      dfurnishing_wt_additional_dscaler, dfurnishing_wt_additional_dacabin) :=  (* L261 *)
                    if empirical then
                      let furnishing_wt_additional := scaler * PAX in  (* L262 *)
                      let dfurnishing_wt_additional_dgross_wt_init := 0 in  (* L263 *)
                      let dfurnishing_wt_additional_dcabin_width := 0 in  (* L264 *)
                      let dfurnishing_wt_additional_dfus_len := 0 in  (* L265 *)
                      let dfurnishing_wt_additional_dscaler := PAX in  (* L266 *)
                      let dfurnishing_wt_additional_dacabin := 0 in  (* L267 *)
                      (furnishing_wt_additional, dfurnishing_wt_additional_dgross_wt_init,
                          dfurnishing_wt_additional_dcabin_width, dfurnishing_wt_additional_dfus_len,
                          dfurnishing_wt_additional_dscaler, dfurnishing_wt_additional_dacabin)
                    else
                      let furnishing_wt_additional := 1184 / 10 * PAX - 4190 in  (* L269 *)
                      let dfurnishing_wt_additional_dgross_wt_init := 0 in  (* L270 *)
                      let dfurnishing_wt_additional_dcabin_width := 0 in  (* L271 *)
                      let dfurnishing_wt_additional_dfus_len := 0 in  (* L272 *)
                      let dfurnishing_wt_additional_dscaler := 0 in  (* L273 *)
                      let dfurnishing_wt_additional_dacabin := 0 in  (* L274 *)
                      (furnishing_wt_additional, dfurnishing_wt_additional_dgross_wt_init,
                          dfurnishing_wt_additional_dcabin_width, dfurnishing_wt_additional_dfus_len,
                          dfurnishing_wt_additional_dscaler, dfurnishing_wt_additional_dacabin) in
                  let cabin_len := 75 / 100 * fus_len in  (* L275 *)
                  let agalley := 5 / 10 * PAX in  (* L276 *)
                  let furnishing_wt := furnishing_wt_additional + num_pilots * (1 + cabin_width / 12) * 90 +
                      num_flight_attendants * 30 + lavatories * 240 + agalley * 12 + 15 / 10 * cabin_len * cabin_width
                      * PI / 2 + 5 / 10 * acabin in  (* L277 *)
                  let dfurnishing_wt_dgross_wt_init := dfurnishing_wt_additional_dgross_wt_init + 0 in  (* L286 *)
                  let dfurnishing_wt_dcabin_width := dfurnishing_wt_additional_dcabin_width + num_pilots * (1 / 12) *
                      90 + 15 / 10 * (75 / 100) * fus_len * PI / 2 in  (* L287 *)
                  let dfurnishing_wt_dfus_len := dfurnishing_wt_additional_dfus_len + 15 / 10 * (75 / 100) *
                      cabin_width * PI / 2 in  (* L292 *)
                  let dfurnishing_wt_dscaler := dfurnishing_wt_additional_dscaler + 0 in  (* L295 *)
                  let dfurnishing_wt_dacabin := dfurnishing_wt_additional_dacabin + 5 / 10 in  (* L296 *)
                  (furnishing_wt, dfurnishing_wt_dgross_wt_init, dfurnishing_wt_dcabin_width, dfurnishing_wt_dfus_len,
                      dfurnishing_wt_dscaler, dfurnishing_wt_dacabin)
                else
                  let CPX_lin := 28 + 10516 / 1000 * (cabin_width - 5667 / 1000) in  (* L298 *)
                  let CPX :=  (* L299 *)
                    if leb cabin_width (5667 / 1000) then
                      let CPX := 28 in  (* L300 *)
                      CPX
                    else
                      let CPX :=  (* L301 *)
                        if ltb (89 / 10) cabin_width then
                          let CPX := 62 in  (* L302 *)
                          CPX
                        else
                          0 in
                      CPX in
                  let furnishing_wt := CPX * PAX + 310 in  (* L303 *)
                  let dCPX_lin_dcabin_width := 10516 / 1000 in  (* L305 *)
                  let dCPX_dcabin_width :=  (* L306 *)
                    if leb cabin_width (5667 / 1000) then
                      let dCPX_dcabin_width := 0 in  (* L307 *)
                      dCPX_dcabin_width
                    else
                      0 in
                  let dCPX_dcabin_width :=  (* L308 *)
                    if ltb (89 / 10) cabin_width then
                      let dCPX_dcabin_width := 0 in  (* L309 *)
                      dCPX_dcabin_width
                    else
                      dCPX_dcabin_width in
                  let dfurnishing_wt_dcabin_width := PAX * dCPX_dcabin_width in  (* L311 *)
                  let dfurnishing_wt_dgross_wt_init := 0 in  (* L312 *)
                  let dfurnishing_wt_dfus_len := 0 in  (* L313 *)
                  let dfurnishing_wt_dscaler := 0 in  (* L314 *)
                  let dfurnishing_wt_dacabin := 0 in  (* L315 *)
                  (furnishing_wt, dfurnishing_wt_dgross_wt_init, dfurnishing_wt_dcabin_width, dfurnishing_wt_dfus_len,
                      dfurnishing_wt_dscaler, dfurnishing_wt_dacabin) in
              (furnishing_wt, dfurnishing_wt_dgross_wt_init, dfurnishing_wt_dcabin_width, dfurnishing_wt_dfus_len,
                  dfurnishing_wt_dscaler, dfurnishing_wt_dacabin) in
          let '(dfurnishing_wt_dcabin_width, dfurnishing_wt_dgross_wt_init, dfurnishing_wt_dfus_len,
              dfurnishing_wt_dscaler, dfurnishing_wt_dacabin) :=  (* L317 *)
            if ltb furnishing_wt 30 then
              let dfurnishing_wt_dcabin_width := 0 in  (* L318 *)
              let dfurnishing_wt_dgross_wt_init := 0 in  (* L319 *)
              let dfurnishing_wt_dfus_len := 0 in  (* L320 *)
              let dfurnishing_wt_dscaler := 0 in  (* L321 *)
              let dfurnishing_wt_dacabin := 0 in  (* L322 *)
              (dfurnishing_wt_dcabin_width, dfurnishing_wt_dgross_wt_init, dfurnishing_wt_dfus_len,
                  dfurnishing_wt_dscaler, dfurnishing_wt_dacabin)
            else
              (dfurnishing_wt_dcabin_width, dfurnishing_wt_dgross_wt_init, dfurnishing_wt_dfus_len,
                  dfurnishing_wt_dscaler, dfurnishing_wt_dacabin) in
          (furnishing_wt, dfurnishing_wt_dcabin_width, dfurnishing_wt_dgross_wt_init, dfurnishing_wt_dfus_len,
              dfurnishing_wt_dscaler, dfurnishing_wt_dacabin) in
      (dfurnishing_wt_dcabin_width, dfurnishing_wt_dgross_wt_init, dfurnishing_wt_dfus_len, dfurnishing_wt_dscaler,
          dfurnishing_wt_dacabin) in  (* L487 *)
  let d_Furnishings_MASS__Design_GROSS_MASS := dfurnishing_wt_dgross_wt_init in  (* L497 *)
  let d_Furnishings_MASS__Fuselage_HYDRAULIC_DIAMETER := dfurnishing_wt_dcabin_width / GRAV_ENGLISH_LBM in  (* L500 *)
  let d_Furnishings_MASS__Fuselage_LENGTH := dfurnishing_wt_dfus_len / GRAV_ENGLISH_LBM in  (* L503 *)
  let d_Furnishings_MASS__Furnishings_MASS_SCALER := dfurnishing_wt_dscaler / GRAV_ENGLISH_LBM in  (* L506 *)
  let d_Furnishings_MASS__Fuselage_CABIN_AREA := dfurnishing_wt_dacabin / GRAV_ENGLISH_LBM in  (* L509 *)
  [(Aircraft_Furnishings_MASS, Aircraft_Design_GROSS_MASS, d_Furnishings_MASS__Design_GROSS_MASS);
   (Aircraft_Furnishings_MASS, Aircraft_Fuselage_HYDRAULIC_DIAMETER, d_Furnishings_MASS__Fuselage_HYDRAULIC_DIAMETER);
   (Aircraft_Furnishings_MASS, Aircraft_Fuselage_LENGTH, d_Furnishings_MASS__Fuselage_LENGTH);
   (Aircraft_Furnishings_MASS, Aircraft_Furnishings_MASS_SCALER, d_Furnishings_MASS__Furnishings_MASS_SCALER);
   (Aircraft_Furnishings_MASS, Aircraft_Fuselage_CABIN_AREA, d_Furnishings_MASS__Fuselage_CABIN_AREA)].

(** Inputs, outputs and declared partials: /repo/aviary/subsystems/mass/gasp_based/furnishings.py L435-453 *)
Definition BWBFurnishingMass (op : options) : comp := {|
  c_ins := [Aircraft_Design_GROSS_MASS;
            Aircraft_Fuselage_HYDRAULIC_DIAMETER;
            Aircraft_Fuselage_LENGTH;
            Aircraft_Furnishings_MASS_SCALER;
            Aircraft_Fuselage_CABIN_AREA];
  c_outs := [Aircraft_Furnishings_MASS];
  c_decl := [(Aircraft_Furnishings_MASS, Aircraft_Fuselage_HYDRAULIC_DIAMETER, 0);
             (Aircraft_Furnishings_MASS, Aircraft_Design_GROSS_MASS, 0);
             (Aircraft_Furnishings_MASS, Aircraft_Furnishings_MASS_SCALER, 0);
             (Aircraft_Furnishings_MASS, Aircraft_Fuselage_LENGTH, 0);
             (Aircraft_Furnishings_MASS, Aircraft_Fuselage_CABIN_AREA, 0)];
  c_run := BWBFurnishingMass_compute op; c_jac := BWBFurnishingMass_partials op |}.

(** HydraulicsMass.compute, /repo/aviary/subsystems/mass/gasp_based/hydraulics.py L32-43 (one engine type or one node) *)
Definition HydraulicsMass_compute (op : options) (e : env) : list (string * R) :=
  let landing_gear_fixed := ob op Aircraft_LandingGear_FIXED_GEAR in  (* L33 *)
  let flight_control_mass_coeff := e Aircraft_Hydraulics_FLIGHT_CONTROL_MASS_COEFFICIENT in  (* L35 *)
  let control_mass := e Aircraft_Controls_MASS in  (* L36 *)
  let landing_gear_mass := e Aircraft_LandingGear_TOTAL_MASS in  (* L37 *)
  let gear_mass_coeff := e Aircraft_Hydraulics_GEAR_MASS_COEFFICIENT in  (* L38 *)
  let o_Hydraulics_MASS := flight_control_mass_coeff * control_mass + gear_mass_coeff * landing_gear_mass * (if negb
      landing_gear_fixed then 1 else 0) in  (* L40 *)
  [(Aircraft_Hydraulics_MASS, o_Hydraulics_MASS)].

(** HydraulicsMass.compute_partials, /repo/aviary/subsystems/mass/gasp_based/hydraulics.py L45-60 *)
Definition HydraulicsMass_partials (op : options) (e : env) : list (string * string * R) :=
  let landing_gear_wt := e Aircraft_LandingGear_TOTAL_MASS in  (* L46 *)
  let control_wt := e Aircraft_Controls_MASS in  (* L47 *)
  let flight_control_mass_coeff := e Aircraft_Hydraulics_FLIGHT_CONTROL_MASS_COEFFICIENT in  (* L48 *)
  let gear_mass_coeff := e Aircraft_Hydraulics_GEAR_MASS_COEFFICIENT in  (* L49 *)
  let gear_val := negb (ob op Aircraft_LandingGear_FIXED_GEAR) in  (* L51 *)
  let d_Hydraulics_MASS__LandingGear_TOTAL_MASS := gear_mass_coeff * (if gear_val then 1 else 0) in  (* L53 *)
  let d_Hydraulics_MASS__Controls_MASS := flight_control_mass_coeff in  (* L54 *)
  let d_Hydraulics_MASS__Hydraulics_FLIGHT_CONTROL_MASS_COEFFICIENT := control_wt in  (* L55 *)
  let d_Hydraulics_MASS__Hydraulics_GEAR_MASS_COEFFICIENT := landing_gear_wt * (if gear_val then 1 else 0) in  (* L58 *)
  [(Aircraft_Hydraulics_MASS, Aircraft_LandingGear_TOTAL_MASS, d_Hydraulics_MASS__LandingGear_TOTAL_MASS);
   (Aircraft_Hydraulics_MASS, Aircraft_Controls_MASS, d_Hydraulics_MASS__Controls_MASS);
   (Aircraft_Hydraulics_MASS, Aircraft_Hydraulics_FLIGHT_CONTROL_MASS_COEFFICIENT,
       d_Hydraulics_MASS__Hydraulics_FLIGHT_CONTROL_MASS_COEFFICIENT);
   (Aircraft_Hydraulics_MASS, Aircraft_Hydraulics_GEAR_MASS_COEFFICIENT,
       d_Hydraulics_MASS__Hydraulics_GEAR_MASS_COEFFICIENT)].

(** Inputs, outputs and declared partials: /repo/aviary/subsystems/mass/gasp_based/hydraulics.py L19-30 *)
Definition HydraulicsMass (op : options) : comp := {|
  c_ins := [Aircraft_Hydraulics_FLIGHT_CONTROL_MASS_COEFFICIENT;
            Aircraft_Hydraulics_GEAR_MASS_COEFFICIENT;
            Aircraft_LandingGear_TOTAL_MASS;
            Aircraft_Controls_MASS];
  c_outs := [Aircraft_Hydraulics_MASS];
  c_decl := [(Aircraft_Hydraulics_MASS, Aircraft_Hydraulics_FLIGHT_CONTROL_MASS_COEFFICIENT, 0);
             (Aircraft_Hydraulics_MASS, Aircraft_Hydraulics_GEAR_MASS_COEFFICIENT, 0);
             (Aircraft_Hydraulics_MASS, Aircraft_LandingGear_TOTAL_MASS, 0);
             (Aircraft_Hydraulics_MASS, Aircraft_Controls_MASS, 0)];
  c_run := HydraulicsMass_compute op; c_jac := HydraulicsMass_partials op |}.

(** InstrumentMass.compute, /repo/aviary/subsystems/mass/gasp_based/instruments.py L32-57 (one engine type or one node) *)
Definition InstrumentMass_compute (op : options) (e : env) : list (string * R) :=
  let num_engines := on op Aircraft_Propulsion_TOTAL_NUM_ENGINES in  (* L33 *)
  let PAX := on op Aircraft_CrewPayload_Design_NUM_PASSENGERS in  (* L34 *)
  let engine_type := oe op Aircraft_Engine_TYPE in  (* L35 *)
  let fus_len := e Aircraft_Fuselage_LENGTH in  (* L37 *)
  let gross_mass_initial := e Aircraft_Design_GROSS_MASS in  (* L38 *)
  let mass_coefficient := e Aircraft_Instruments_MASS_COEFFICIENT in  (* L39 *)
  let wingspan := e Aircraft_Wing_SPAN in  (* L40 *)
  let num_pilots := 1 in  (* L42 *)
  let num_pilots :=  (* L43 *)
    if ltb 9 PAX then
      let num_pilots := 2 in  (* L44 *)
      num_pilots
    else
      num_pilots in
  let num_pilots :=  (* L45 *)
    if ((enum_is engine_type "TURBOJET") && (ltb 5 PAX))%bool then
      let num_pilots := 2 in  (* L46 *)
      num_pilots
    else
      num_pilots in
  let num_pilots :=  (* L47 *)
    if leb 351 PAX then
      let num_pilots := 3 in  (* L48 *)
      num_pilots
    else
      num_pilots in
  let o_Instruments_MASS := mass_coefficient * gross_mass_initial ** (386 / 1000) * num_engines ** (687 / 1000) *
      num_pilots ** (31 / 100) * fus_len ** (5 / 100) * wingspan ** (696 / 1000) in  (* L50 *)
  [(Aircraft_Instruments_MASS, o_Instruments_MASS)].

(** InstrumentMass.compute_partials, /repo/aviary/subsystems/mass/gasp_based/instruments.py L59-119 *)
Definition InstrumentMass_partials (op : options) (e : env) : list (string * string * R) :=
  let num_engines := on op Aircraft_Propulsion_TOTAL_NUM_ENGINES in  (* L60 *)
  let PAX := on op Aircraft_CrewPayload_Design_NUM_PASSENGERS in  (* L61 *)
  let engine_type := oe op Aircraft_Engine_TYPE in  (* L62 *)
  let fus_len := e Aircraft_Fuselage_LENGTH in  (* L64 *)
  let gross_mass_initial := e Aircraft_Design_GROSS_MASS in  (* L65 *)
  let mass_coefficient := e Aircraft_Instruments_MASS_COEFFICIENT in  (* L66 *)
  let wingspan := e Aircraft_Wing_SPAN in  (* L67 *)
  let num_pilots := 1 in  (* L69 *)
  let num_pilots :=  (* L70 *)
    if ltb 9 PAX then
      let num_pilots := 2 in  (* L71 *)
      num_pilots
    else
      num_pilots in
  let num_pilots :=  (* L72 *)
    if ((enum_is engine_type "TURBOJET") && (ltb 5 PAX))%bool then
      let num_pilots := 2 in  (* L73 *)
      num_pilots
    else
      num_pilots in
  let num_pilots :=  (* L74 *)
    if leb 351 PAX then
      let num_pilots := 3 in  (* L75 *)
      num_pilots
    else
      num_pilots in
  let dinstrument_wt_dmass_coeff_1 := gross_mass_initial ** (386 / 1000) * num_engines ** (687 / 1000) * num_pilots **
      (31 / 100) * fus_len ** (5 / 100) * wingspan ** (696 / 1000) in  (* L77 *)
  let d_Instruments_MASS__Instruments_MASS_COEFFICIENT := dinstrument_wt_dmass_coeff_1 in  (* L84 *)
  let dinstrument_wt_dgross_wt_initial := 386 / 1000 * mass_coefficient * gross_mass_initial ** (386 / 1000 - 1) *
      num_engines ** (687 / 1000) * num_pilots ** (31 / 100) * fus_len ** (5 / 100) * wingspan ** (696 / 1000) in  (* L88 *)
  let d_Instruments_MASS__Design_GROSS_MASS := dinstrument_wt_dgross_wt_initial in  (* L97 *)
  let dinstrument_wt_dfus_len := 5 / 100 * mass_coefficient * gross_mass_initial ** (386 / 1000) * num_engines ** (687
      / 1000) * num_pilots ** (31 / 100) * fus_len ** (5 / 100 - 1) * wingspan ** (696 / 1000) in  (* L99 *)
  let d_Instruments_MASS__Fuselage_LENGTH := dinstrument_wt_dfus_len in  (* L108 *)
  let dinstrument_wt_dwingspan := 696 / 1000 * mass_coefficient * gross_mass_initial ** (386 / 1000) * num_engines **
      (687 / 1000) * num_pilots ** (31 / 100) * fus_len ** (5 / 100) * wingspan ** (696 / 1000 - 1) in  (* L110 *)
  let d_Instruments_MASS__Wing_SPAN := dinstrument_wt_dwingspan in  (* L119 *)
  [(Aircraft_Instruments_MASS, Aircraft_Instruments_MASS_COEFFICIENT,
      d_Instruments_MASS__Instruments_MASS_COEFFICIENT);
   (Aircraft_Instruments_MASS, Aircraft_Design_GROSS_MASS, d_Instruments_MASS__Design_GROSS_MASS);
   (Aircraft_Instruments_MASS, Aircraft_Fuselage_LENGTH, d_Instruments_MASS__Fuselage_LENGTH);
   (Aircraft_Instruments_MASS, Aircraft_Wing_SPAN, d_Instruments_MASS__Wing_SPAN)].

(** Inputs, outputs and declared partials: /repo/aviary/subsystems/mass/gasp_based/instruments.py L22-30 *)
Definition InstrumentMass (op : options) : comp := {|
  c_ins := [Aircraft_Design_GROSS_MASS;
            Aircraft_Fuselage_LENGTH;
            Aircraft_Wing_SPAN;
            Aircraft_Instruments_MASS_COEFFICIENT];
  c_outs := [Aircraft_Instruments_MASS];
  c_decl := [(Aircraft_Instruments_MASS, Aircraft_Design_GROSS_MASS, 0);
             (Aircraft_Instruments_MASS, Aircraft_Fuselage_LENGTH, 0);
             (Aircraft_Instruments_MASS, Aircraft_Wing_SPAN, 0);
             (Aircraft_Instruments_MASS, Aircraft_Instruments_MASS_COEFFICIENT, 0)];
  c_run := InstrumentMass_compute op; c_jac := InstrumentMass_partials op |}.

(** LandingMass.compute, /repo/aviary/subsystems/mass/gasp_based/landing.py L23-27 (one engine type or one node) *)
Definition LandingMass_compute (op : options) (e : env) : list (string * R) :=
  let gross_mass := e Aircraft_Design_GROSS_MASS in  (* L24 *)
  let landing_to_takeoff_mass_ratio := e Aircraft_Design_LANDING_TO_TAKEOFF_MASS_RATIO in  (* L25 *)
  let o_Design_TOUCHDOWN_MASS_MAX := gross_mass * landing_to_takeoff_mass_ratio in  (* L27 *)
  [(Aircraft_Design_TOUCHDOWN_MASS_MAX, o_Design_TOUCHDOWN_MASS_MAX)].

(** LandingMass.compute_partials, /repo/aviary/subsystems/mass/gasp_based/landing.py L29-39 *)
Definition LandingMass_partials (op : options) (e : env) : list (string * string * R) :=
  let gross_mass := e Aircraft_Design_GROSS_MASS in  (* L30 *)
  let landing_to_takeoff_mass_ratio := e Aircraft_Design_LANDING_TO_TAKEOFF_MASS_RATIO in  (* L31 *)
  let d_Design_TOUCHDOWN_MASS_MAX__Design_GROSS_MASS := landing_to_takeoff_mass_ratio in  (* L33 *)
  let d_Design_TOUCHDOWN_MASS_MAX__Design_LANDING_TO_TAKEOFF_MASS_RATIO := gross_mass in  (* L37 *)
  [(Aircraft_Design_TOUCHDOWN_MASS_MAX, Aircraft_Design_GROSS_MASS, d_Design_TOUCHDOWN_MASS_MAX__Design_GROSS_MASS);
   (Aircraft_Design_TOUCHDOWN_MASS_MAX, Aircraft_Design_LANDING_TO_TAKEOFF_MASS_RATIO,
       d_Design_TOUCHDOWN_MASS_MAX__Design_LANDING_TO_TAKEOFF_MASS_RATIO)].

(** Inputs, outputs and declared partials: /repo/aviary/subsystems/mass/gasp_based/landing.py L14-21 *)
Definition LandingMass (op : options) : comp := {|
  c_ins := [Aircraft_Design_GROSS_MASS;
            Aircraft_Design_LANDING_TO_TAKEOFF_MASS_RATIO];
  c_outs := [Aircraft_Design_TOUCHDOWN_MASS_MAX];
  c_decl := [(Aircraft_Design_TOUCHDOWN_MASS_MAX, Aircraft_Design_GROSS_MASS, 0);
             (Aircraft_Design_TOUCHDOWN_MASS_MAX, Aircraft_Design_LANDING_TO_TAKEOFF_MASS_RATIO, 0)];
  c_run := LandingMass_compute op; c_jac := LandingMass_partials op |}.

(** TotalLandingGearMass.compute, /repo/aviary/subsystems/mass/gasp_based/landing.py L77-109 (one engine type or one node) *)
Definition TotalLandingGearMass_compute (op : options) (e : env) : list (string * R) :=
  let wing_loc := e Aircraft_Wing_VERTICAL_MOUNT_LOCATION in  (* L78 *)
  let c_gear_mass := e Aircraft_LandingGear_MASS_COEFFICIENT in  (* L79 *)
  let landing_wt := e Aircraft_Design_TOUCHDOWN_MASS_MAX * GRAV_ENGLISH_LBM in  (* L80 *)
  let clearance_ratio := e Aircraft_Nacelle_CLEARANCE_RATIO in  (* L81 *)
  let nacelle_diam := e Aircraft_Nacelle_AVG_DIAMETER in  (* L82 *)
  let CK12 := e Aircraft_LandingGear_TOTAL_MASS_SCALER in  (* L83 *)
  let gear_height_temp := ks1 ((1 + clearance_ratio) * nacelle_diam) 50 in  (* L89 *)
  let gear_height_temp := gear_height_temp in  (* L93 *)
  let gear_height := gear_height_temp * sigmoidX1 gear_height_temp 6 (1 / 320) + 6 * sigmoidX1 gear_height_temp 6 (- 1
      / 320) in  (* L94 *)
  let c_gear_mass_modified := c_gear_mass * (85 / 100) * (1 + 1765 / 10000 * gear_height / 6) * sigmoidX1 wing_loc (5
      / 1000) (- 1 / 100 / 320) + c_gear_mass * sigmoidX1 wing_loc (5 / 1000) (1 / 100 / 320) in  (* L103 *)
  let landing_gear_wt := c_gear_mass_modified * landing_wt in  (* L107 *)
  let o_LandingGear_TOTAL_MASS := CK12 * landing_gear_wt / GRAV_ENGLISH_LBM in  (* L109 *)
  [(Aircraft_LandingGear_TOTAL_MASS, o_LandingGear_TOTAL_MASS)].

(** TotalLandingGearMass.compute_partials, /repo/aviary/subsystems/mass/gasp_based/landing.py L111-177 *)
Definition TotalLandingGearMass_partials (op : options) (e : env) : list (string * string * R) :=
  let c_gear_mass := e Aircraft_LandingGear_MASS_COEFFICIENT in  (* L112 *)
  let landing_wt := e Aircraft_Design_TOUCHDOWN_MASS_MAX * GRAV_ENGLISH_LBM in  (* L113 *)
  let wing_loc := e Aircraft_Wing_VERTICAL_MOUNT_LOCATION in  (* L114 *)
  let clearance_ratio := e Aircraft_Nacelle_CLEARANCE_RATIO in  (* L115 *)
  let nacelle_diam := e Aircraft_Nacelle_AVG_DIAMETER in  (* L116 *)
  let val := (1 + clearance_ratio) * nacelle_diam in  (* L118 *)
  let gear_height_temp := ks1 val 50 in  (* L119 *)
  let '(dKS, _) := dks1 val 50 in  (* L120 *)
  let gear_height_temp := gear_height_temp in  (* L122 *)
  let gear_height := gear_height_temp * sigmoidX1 gear_height_temp 6 (1 / 320) + 6 * sigmoidX1 gear_height_temp 6 (- 1
      / 320) in  (* L123 *)
  let dLGW_dCGW := (85 / 100 * (1 + 1765 / 10000 * gear_height / 6) * sigmoidX1 wing_loc (5 / 1000) (- 1 / 100 / 320)
      + sigmoidX1 wing_loc (5 / 1000) (1 / 100 / 320)) * landing_wt in  (* L127 *)
  let dGH_dCR := (sigmoidX1 gear_height_temp 6 (1 / 320) * nacelle_diam + gear_height_temp * dSigmoidX1
      gear_height_temp 6 (1 / 320) * nacelle_diam + 6 * dSigmoidX1 gear_height_temp 6 (1 / 320) * - nacelle_diam) *
      dKS in  (* L132 *)
  let dGH_dND := (sigmoidX1 gear_height_temp 6 (1 / 320) * (1 + clearance_ratio) + gear_height_temp * dSigmoidX1
      gear_height_temp 6 (1 / 320) * (1 + clearance_ratio)) * dKS + 6 * dSigmoidX1 gear_height_temp 6 (1 / 320) * (1 +
      clearance_ratio) in  (* L140 *)
  let c_gear_mass_modified := c_gear_mass * (85 / 100) * (1 + 1765 / 10000 * gear_height / 6) * sigmoidX1 wing_loc (5
      / 1000) (- 1 / 100 / 320) + c_gear_mass * sigmoidX1 wing_loc (5 / 1000) (1 / 100 / 320) in  (* L145 *)
  let dLGW_dCR := c_gear_mass * (85 / 100) * (1765 / 10000) / 6 * dGH_dCR * landing_wt * sigmoidX1 wing_loc (5 / 1000)
      (- 1 / 100 / 320) in  (* L149 *)
  let dLGW_dND := c_gear_mass * (85 / 100) * (1765 / 10000) / 6 * dGH_dND * landing_wt * sigmoidX1 wing_loc (5 / 1000)
      (- 1 / 100 / 320) in  (* L154 *)
  let d_LandingGear_TOTAL_MASS__LandingGear_MASS_COEFFICIENT := dLGW_dCGW / GRAV_ENGLISH_LBM in  (* L159 *)
  let d_LandingGear_TOTAL_MASS__Nacelle_CLEARANCE_RATIO := dLGW_dCR / GRAV_ENGLISH_LBM in  (* L163 *)
  let d_LandingGear_TOTAL_MASS__Nacelle_AVG_DIAMETER := dLGW_dND / GRAV_ENGLISH_LBM in  (* L167 *)
  let d_LandingGear_TOTAL_MASS__Design_TOUCHDOWN_MASS_MAX := c_gear_mass_modified in  (* L171 *)
  let d_LandingGear_TOTAL_MASS__LandingGear_TOTAL_MASS_SCALER := c_gear_mass_modified * landing_wt / GRAV_ENGLISH_LBM
      in  (* L175 *)
  [(Aircraft_LandingGear_TOTAL_MASS, Aircraft_LandingGear_MASS_COEFFICIENT,
      d_LandingGear_TOTAL_MASS__LandingGear_MASS_COEFFICIENT);
   (Aircraft_LandingGear_TOTAL_MASS, Aircraft_Nacelle_CLEARANCE_RATIO,
       d_LandingGear_TOTAL_MASS__Nacelle_CLEARANCE_RATIO);
   (Aircraft_LandingGear_TOTAL_MASS, Aircraft_Nacelle_AVG_DIAMETER, d_LandingGear_TOTAL_MASS__Nacelle_AVG_DIAMETER);
   (Aircraft_LandingGear_TOTAL_MASS, Aircraft_Design_TOUCHDOWN_MASS_MAX,
       d_LandingGear_TOTAL_MASS__Design_TOUCHDOWN_MASS_MAX);
   (Aircraft_LandingGear_TOTAL_MASS, Aircraft_LandingGear_TOTAL_MASS_SCALER,
       d_LandingGear_TOTAL_MASS__LandingGear_TOTAL_MASS_SCALER)].

(** Inputs, outputs and declared partials: /repo/aviary/subsystems/mass/gasp_based/landing.py L48-75 *)
Definition TotalLandingGearMass (op : options) : comp := {|
  c_ins := [Aircraft_Wing_VERTICAL_MOUNT_LOCATION;
            Aircraft_LandingGear_MASS_COEFFICIENT;
            Aircraft_Design_TOUCHDOWN_MASS_MAX;
            Aircraft_Nacelle_CLEARANCE_RATIO;
            Aircraft_Nacelle_AVG_DIAMETER;
            Aircraft_LandingGear_TOTAL_MASS_SCALER];
  c_outs := [Aircraft_LandingGear_TOTAL_MASS];
  c_decl := [(Aircraft_LandingGear_TOTAL_MASS, Aircraft_LandingGear_MASS_COEFFICIENT, 0);
             (Aircraft_LandingGear_TOTAL_MASS, Aircraft_Design_TOUCHDOWN_MASS_MAX, 0);
             (Aircraft_LandingGear_TOTAL_MASS, Aircraft_Nacelle_CLEARANCE_RATIO, 0);
             (Aircraft_LandingGear_TOTAL_MASS, Aircraft_Nacelle_AVG_DIAMETER, 0);
             (Aircraft_LandingGear_TOTAL_MASS, Aircraft_LandingGear_TOTAL_MASS_SCALER, 0)];
  c_run := TotalLandingGearMass_compute op; c_jac := TotalLandingGearMass_partials op |}.

(** LandingGearMass.compute, /repo/aviary/subsystems/mass/gasp_based/landing.py L205-210 (one engine type or one node) *)
Definition LandingGearMass_compute (op : options) (e : env) : list (string * R) :=
  let c_main_gear := e Aircraft_LandingGear_MAIN_GEAR_MASS_FRACTION in  (* L206 *)
  let landing_gear_mass := e Aircraft_LandingGear_TOTAL_MASS in  (* L207 *)
  let o_LandingGear_MAIN_GEAR_MASS := c_main_gear * landing_gear_mass in  (* L209 *)
  let o_LandingGear_NOSE_GEAR_MASS := (1 - c_main_gear) * landing_gear_mass in  (* L210 *)
  [(Aircraft_LandingGear_MAIN_GEAR_MASS, o_LandingGear_MAIN_GEAR_MASS);
   (Aircraft_LandingGear_NOSE_GEAR_MASS, o_LandingGear_NOSE_GEAR_MASS)].

(** LandingGearMass.compute_partials, /repo/aviary/subsystems/mass/gasp_based/landing.py L212-224 *)
Definition LandingGearMass_partials (op : options) (e : env) : list (string * string * R) :=
  let c_main_gear := e Aircraft_LandingGear_MAIN_GEAR_MASS_FRACTION in  (* L213 *)
  let landing_gear_mass := e Aircraft_LandingGear_TOTAL_MASS in  (* L214 *)
  let d_LandingGear_MAIN_GEAR_MASS__LandingGear_TOTAL_MASS := c_main_gear in  (* L216 *)
  let d_LandingGear_MAIN_GEAR_MASS__LandingGear_MAIN_GEAR_MASS_FRACTION := landing_gear_mass in  (* L217 *)
  let d_LandingGear_NOSE_GEAR_MASS__LandingGear_TOTAL_MASS := 1 - c_main_gear in  (* L221 *)
  let d_LandingGear_NOSE_GEAR_MASS__LandingGear_MAIN_GEAR_MASS_FRACTION := - landing_gear_mass in  (* L222 *)
  [(Aircraft_LandingGear_MAIN_GEAR_MASS, Aircraft_LandingGear_TOTAL_MASS,
      d_LandingGear_MAIN_GEAR_MASS__LandingGear_TOTAL_MASS);
   (Aircraft_LandingGear_MAIN_GEAR_MASS, Aircraft_LandingGear_MAIN_GEAR_MASS_FRACTION,
       d_LandingGear_MAIN_GEAR_MASS__LandingGear_MAIN_GEAR_MASS_FRACTION);
   (Aircraft_LandingGear_NOSE_GEAR_MASS, Aircraft_LandingGear_TOTAL_MASS,
       d_LandingGear_NOSE_GEAR_MASS__LandingGear_TOTAL_MASS);
   (Aircraft_LandingGear_NOSE_GEAR_MASS, Aircraft_LandingGear_MAIN_GEAR_MASS_FRACTION,
       d_LandingGear_NOSE_GEAR_MASS__LandingGear_MAIN_GEAR_MASS_FRACTION)].

(** Inputs, outputs and declared partials: /repo/aviary/subsystems/mass/gasp_based/landing.py L183-203 *)
Definition LandingGearMass (op : options) : comp := {|
  c_ins := [Aircraft_LandingGear_MAIN_GEAR_MASS_FRACTION;
            Aircraft_LandingGear_TOTAL_MASS];
  c_outs := [Aircraft_LandingGear_MAIN_GEAR_MASS;
             Aircraft_LandingGear_NOSE_GEAR_MASS];
  c_decl := [(Aircraft_LandingGear_MAIN_GEAR_MASS, Aircraft_LandingGear_TOTAL_MASS, 0);
             (Aircraft_LandingGear_MAIN_GEAR_MASS, Aircraft_LandingGear_MAIN_GEAR_MASS_FRACTION, 0);
             (Aircraft_LandingGear_NOSE_GEAR_MASS, Aircraft_LandingGear_TOTAL_MASS, 0);
             (Aircraft_LandingGear_NOSE_GEAR_MASS, Aircraft_LandingGear_MAIN_GEAR_MASS_FRACTION, 0)];
  c_run := LandingGearMass_compute op; c_jac := LandingGearMass_partials op |}.

(** OxygenSystemMass.compute, /repo/aviary/subsystems/mass/gasp_based/oxygen_system.py L29-50 (one engine type or one node) *)
Definition OxygenSystemMass_compute (op : options) (e : env) : list (string * R) :=
  let PAX := on op Aircraft_CrewPayload_Design_NUM_PASSENGERS in  (* L30 *)
  let smooth := ob op Aircraft_Design_SMOOTH_MASS_DISCONTINUITIES in  (* L31 *)
  let gross_wt_initial := e Aircraft_Design_GROSS_MASS * GRAV_ENGLISH_LBM in  (* L33 *)
  let oxygen_system_wt :=  (* L35 *)
    if ltb PAX 9 then
      let oxygen_system_wt :=  (* L36 *)
        if smooth then
          let oxygen_system_wt := 3 * sigmoidX1 (gross_wt_initial / 3000) 1 (1 / 100) in  (* L37 *)
          oxygen_system_wt
        else
          let oxygen_system_wt :=  (* L39 *)
            if ltb 3000 gross_wt_initial then
              let oxygen_system_wt := 3 in  (* L40 *)
              oxygen_system_wt
            else
              let oxygen_system_wt := 0 in  (* L42 *)
              oxygen_system_wt in
          oxygen_system_wt in
      oxygen_system_wt
    else
      let oxygen_system_wt :=  (* L43 *)
        if ((leb 9 PAX) && (ltb PAX 20))%bool then
          let oxygen_system_wt := 10 in  (* L44 *)
          oxygen_system_wt
        else
          let oxygen_system_wt :=  (* L45 *)
            if ((leb 20 PAX) && (ltb PAX 75))%bool then
              let oxygen_system_wt := 20 in  (* L46 *)
              oxygen_system_wt
            else
              let oxygen_system_wt := 50 in  (* L48 *)
              oxygen_system_wt in
          oxygen_system_wt in
      oxygen_system_wt in
  let o_OxygenSystem_MASS := oxygen_system_wt / GRAV_ENGLISH_LBM in  (* L50 *)
  [(Aircraft_OxygenSystem_MASS, o_OxygenSystem_MASS)].

(** OxygenSystemMass.compute_partials, /repo/aviary/subsystems/mass/gasp_based/oxygen_system.py L52-71 *)
Definition OxygenSystemMass_partials (op : options) (e : env) : list (string * string * R) :=
  let PAX := on op Aircraft_CrewPayload_Design_NUM_PASSENGERS in  (* L53 *)
  let smooth := ob op Aircraft_Design_SMOOTH_MASS_DISCONTINUITIES in  (* L54 *)
  let gross_wt_initial := e Aircraft_Design_GROSS_MASS * GRAV_ENGLISH_LBM in  (* L56 *)
  let d_aux_wt_dgross_wt_initial :=  (* L58 *)
    if ltb PAX 9 then
      let d_aux_wt_dgross_wt_initial :=  (* L59 *)
        if smooth then
          let d_aux_wt_dgross_wt_initial := 3 * dSigmoidX1 (gross_wt_initial / 3000) 1 (1 / 100) * 1 / 3000 in  (* L60 *)
          d_aux_wt_dgross_wt_initial
        else
          let d_aux_wt_dgross_wt_initial :=  (* L64 *)
            if ltb 3000 gross_wt_initial then
              let d_aux_wt_dgross_wt_initial := 0 in  (* L65 *)
              d_aux_wt_dgross_wt_initial
            else
              0 in
          d_aux_wt_dgross_wt_initial in
      d_aux_wt_dgross_wt_initial
    else
      let d_aux_wt_dgross_wt_initial := 0 in  (* L67 *)
      d_aux_wt_dgross_wt_initial in
  let d_OxygenSystem_MASS__Design_GROSS_MASS := d_aux_wt_dgross_wt_initial / GRAV_ENGLISH_LBM in  (* L69 *)
  [(Aircraft_OxygenSystem_MASS, Aircraft_Design_GROSS_MASS, d_OxygenSystem_MASS__Design_GROSS_MASS)].

(** Inputs, outputs and declared partials: /repo/aviary/subsystems/mass/gasp_based/oxygen_system.py L22-27 *)
Definition OxygenSystemMass (op : options) : comp := {|
  c_ins := [Aircraft_Design_GROSS_MASS];
  c_outs := [Aircraft_OxygenSystem_MASS];
  c_decl := [(Aircraft_OxygenSystem_MASS, Aircraft_Design_GROSS_MASS, 0)];
  c_run := OxygenSystemMass_compute op; c_jac := OxygenSystemMass_partials op |}.

(** PassengerServiceMass.compute, /repo/aviary/subsystems/mass/gasp_based/passenger_service.py L34-68 (one engine type or one node) *)
Definition PassengerServiceMass_compute (op : options) (e : env) : list (string * R) :=
  let num_pax := on op Aircraft_CrewPayload_Design_NUM_PASSENGERS in  (* L35 *)
  let service_mass_per_passenger := e Aircraft_CrewPayload_PASSENGER_SERVICE_MASS_PER_PASSENGER in  (* L36 *)
  let water_mass_per_occupant := e Aircraft_CrewPayload_WATER_MASS_PER_OCCUPANT in  (* L39 *)
  let catering_mass_per_passenger := e Aircraft_CrewPayload_CATERING_ITEMS_MASS_PER_PASSENGER in  (* L40 *)
  let num_lavatories := 0 in  (* L42 *)
  let num_lavatories :=  (* L43 *)
    if ltb 25 num_pax then
      let num_lavatories := 1 in  (* L44 *)
      num_lavatories
    else
      num_lavatories in
  let num_lavatories :=  (* L45 *)
    if leb 51 num_pax then
      let num_lavatories := 2 in  (* L46 *)
      num_lavatories
    else
      num_lavatories in
  let num_lavatories :=  (* L47 *)
    if leb 101 num_pax then
      let num_lavatories := 3 in  (* L48 *)
      num_lavatories
    else
      num_lavatories in
  let num_lavatories :=  (* L49 *)
    if leb 151 num_pax then
      let num_lavatories := 4 in  (* L50 *)
      num_lavatories
    else
      num_lavatories in
  let num_lavatories :=  (* L51 *)
    if leb 201 num_pax then
      let num_lavatories := 5 in  (* L52 *)
      num_lavatories
    else
      num_lavatories in
  let num_lavatories :=  (* L53 *)
    if leb 251 num_pax then
      let num_lavatories := 6 in  (* L54 *)
      num_lavatories
    else
      num_lavatories in
  let service_wt := 0 in  (* L56 *)
  let service_wt :=  (* L57 *)
    if ltb 9 num_pax then
      let service_wt := service_mass_per_passenger * num_pax + 16 * num_lavatories in  (* L58 *)
      service_wt
    else
      service_wt in
  let water_wt := 0 in  (* L60 *)
  let water_wt :=  (* L61 *)
    if ltb 19 num_pax then
      let water_wt := water_mass_per_occupant * num_pax in  (* L62 *)
      water_wt
    else
      water_wt in
  let catering_wt := 0 in  (* L64 *)
  let catering_wt :=  (* L65 *)
    if ltb 19 num_pax then
      let catering_wt := catering_mass_per_passenger * num_pax in  (* L66 *)
      catering_wt
    else
      catering_wt in
  let o_CrewPayload_PASSENGER_SERVICE_MASS := service_wt + water_wt + catering_wt in  (* L68 *)
  [(Aircraft_CrewPayload_PASSENGER_SERVICE_MASS, o_CrewPayload_PASSENGER_SERVICE_MASS)].

(** PassengerServiceMass.compute_partials, /repo/aviary/subsystems/mass/gasp_based/passenger_service.py L70-103 *)
Definition PassengerServiceMass_partials (op : options) (e : env) : list (string * string * R) :=
  let num_pax := on op Aircraft_CrewPayload_Design_NUM_PASSENGERS in  (* L71 *)
  let '(d_CrewPayload_PASSENGER_SERVICE_MASS__CrewPayload_PASSENGER_SERVICE_MASS_PER_PASSENGER,
      d_CrewPayload_PASSENGER_SERVICE_MASS__CrewPayload_WATER_MASS_PER_OCCUPANT,
      d_CrewPayload_PASSENGER_SERVICE_MASS__CrewPayload_CATERING_ITEMS_MASS_PER_PASSENGER) :=  (* L73 *)
    if ltb 19 num_pax then
      let d_CrewPayload_PASSENGER_SERVICE_MASS__CrewPayload_PASSENGER_SERVICE_MASS_PER_PASSENGER := num_pax in  (* L74 *)
      let d_CrewPayload_PASSENGER_SERVICE_MASS__CrewPayload_WATER_MASS_PER_OCCUPANT := num_pax in  (* L79 *)
      let d_CrewPayload_PASSENGER_SERVICE_MASS__CrewPayload_CATERING_ITEMS_MASS_PER_PASSENGER := num_pax in  (* L84 *)
      (d_CrewPayload_PASSENGER_SERVICE_MASS__CrewPayload_PASSENGER_SERVICE_MASS_PER_PASSENGER,
          d_CrewPayload_PASSENGER_SERVICE_MASS__CrewPayload_WATER_MASS_PER_OCCUPANT,
          d_CrewPayload_PASSENGER_SERVICE_MASS__CrewPayload_CATERING_ITEMS_MASS_PER_PASSENGER)
    else
      let d_CrewPayload_PASSENGER_SERVICE_MASS__CrewPayload_PASSENGER_SERVICE_MASS_PER_PASSENGER := 0 in  (* L90 *)
      let d_CrewPayload_PASSENGER_SERVICE_MASS__CrewPayload_WATER_MASS_PER_OCCUPANT := 0 in  (* L95 *)
      let d_CrewPayload_PASSENGER_SERVICE_MASS__CrewPayload_CATERING_ITEMS_MASS_PER_PASSENGER := 0 in  (* L100 *)
      (d_CrewPayload_PASSENGER_SERVICE_MASS__CrewPayload_PASSENGER_SERVICE_MASS_PER_PASSENGER,
          d_CrewPayload_PASSENGER_SERVICE_MASS__CrewPayload_WATER_MASS_PER_OCCUPANT,
          d_CrewPayload_PASSENGER_SERVICE_MASS__CrewPayload_CATERING_ITEMS_MASS_PER_PASSENGER) in
  [(Aircraft_CrewPayload_PASSENGER_SERVICE_MASS, Aircraft_CrewPayload_PASSENGER_SERVICE_MASS_PER_PASSENGER,
      d_CrewPayload_PASSENGER_SERVICE_MASS__CrewPayload_PASSENGER_SERVICE_MASS_PER_PASSENGER);
   (Aircraft_CrewPayload_PASSENGER_SERVICE_MASS, Aircraft_CrewPayload_WATER_MASS_PER_OCCUPANT,
       d_CrewPayload_PASSENGER_SERVICE_MASS__CrewPayload_WATER_MASS_PER_OCCUPANT);
   (Aircraft_CrewPayload_PASSENGER_SERVICE_MASS, Aircraft_CrewPayload_CATERING_ITEMS_MASS_PER_PASSENGER,
       d_CrewPayload_PASSENGER_SERVICE_MASS__CrewPayload_CATERING_ITEMS_MASS_PER_PASSENGER)].

(** Inputs, outputs and declared partials: /repo/aviary/subsystems/mass/gasp_based/passenger_service.py L22-32 *)
Definition PassengerServiceMass (op : options) : comp := {|
  c_ins := [Aircraft_CrewPayload_PASSENGER_SERVICE_MASS_PER_PASSENGER;
            Aircraft_CrewPayload_WATER_MASS_PER_OCCUPANT;
            Aircraft_CrewPayload_CATERING_ITEMS_MASS_PER_PASSENGER];
  c_outs := [Aircraft_CrewPayload_PASSENGER_SERVICE_MASS];
  c_decl := [(Aircraft_CrewPayload_PASSENGER_SERVICE_MASS, Aircraft_CrewPayload_PASSENGER_SERVICE_MASS_PER_PASSENGER,
      0);
             (Aircraft_CrewPayload_PASSENGER_SERVICE_MASS, Aircraft_CrewPayload_WATER_MASS_PER_OCCUPANT, 0);
             (Aircraft_CrewPayload_PASSENGER_SERVICE_MASS, Aircraft_CrewPayload_CATERING_ITEMS_MASS_PER_PASSENGER,
                 0)];
  c_run := PassengerServiceMass_compute op; c_jac := PassengerServiceMass_partials op |}.
