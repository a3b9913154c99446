(** GASP masses of the wing, the fuselage, the tails, the engines and the fixed parts,
    /repo/aviary/subsystems/mass/gasp_based.

    One engine type.  A local variable that is bound on one branch of an if only has the value 0 on the other branch,
        where
    Python raises UnboundLocalError when it is read; theorems exclude these runs.  WingMountEngineMass and
        HighLiftMass are left out.

    Generated by tools/py2coq.py from the source text; see the header of that file for the rules.  Decimal
    literals are exact and numbers are real numbers. *)
From Coq Require Import Reals.
From Verif Require Import Base Comp MathModel CompMore CompFun.
Open Scope list_scope.
Open Scope string_scope.
Local Open Scope R_scope.

(** ** Variable names, /repo/aviary/variable_info/variables.py *)
Definition Aircraft_CrewPayload_CARGO_MASS := "aircraft:crew_and_payload:cargo_mass".
Definition Aircraft_CrewPayload_Design_CARGO_MASS := "aircraft:crew_and_payload:design:cargo_mass".
Definition Aircraft_CrewPayload_Design_MAX_CARGO_MASS := "aircraft:crew_and_payload:design:max_cargo_mass".
Definition Aircraft_CrewPayload_Design_NUM_PASSENGERS := "aircraft:crew_and_payload:design:num_passengers".
Definition Aircraft_CrewPayload_MASS_PER_PASSENGER_WITH_BAGS :=
    "aircraft:crew_and_payload:mass_per_passenger_with_bags".
Definition Aircraft_CrewPayload_NUM_PASSENGERS := "aircraft:crew_and_payload:num_passengers".
Definition Aircraft_CrewPayload_PASSENGER_PAYLOAD_MASS := "aircraft:crew_and_payload:passenger_payload_mass".
Definition Aircraft_CrewPayload_TOTAL_PAYLOAD_MASS := "aircraft:crew_and_payload:total_payload_mass".
Definition Aircraft_Design_GROSS_MASS := "aircraft:design:gross_mass".
Definition Aircraft_Design_SMOOTH_MASS_DISCONTINUITIES := "aircraft:design:smooth_mass_discontinuities".
Definition Aircraft_Electrical_HYBRID_CABLE_LENGTH := "aircraft:electrical:hybrid_cable_length".
Definition Aircraft_Engine_ADDITIONAL_MASS := "aircraft:engine:additional_mass".
Definition Aircraft_Engine_ADDITIONAL_MASS_FRACTION := "aircraft:engine:additional_mass_fraction".
Definition Aircraft_Engine_MASS_SPECIFIC := "aircraft:engine:mass_specific".
Definition Aircraft_Engine_NUM_ENGINES := "aircraft:engine:num_engines".
Definition Aircraft_Engine_POD_MASS := "aircraft:engine:pod_mass".
Definition Aircraft_Engine_POD_MASS_SCALER := "aircraft:engine:pod_mass_scaler".
Definition Aircraft_Engine_PYLON_FACTOR := "aircraft:engine:pylon_factor".
Definition Aircraft_Engine_Propeller_MASS := "aircraft:engine:propeller:mass".
Definition Aircraft_Engine_SCALED_SLS_THRUST := "aircraft:engine:scaled_sls_thrust".
Definition Aircraft_Fuselage_LENGTH := "aircraft:fuselage:length".
Definition Aircraft_HorizontalTail_AREA := "aircraft:horizontal_tail:area".
Definition Aircraft_HorizontalTail_MASS := "aircraft:horizontal_tail:mass".
Definition Aircraft_HorizontalTail_MASS_COEFFICIENT := "aircraft:horizontal_tail:mass_coefficient".
Definition Aircraft_HorizontalTail_MASS_SCALER := "aircraft:horizontal_tail:mass_scaler".
Definition Aircraft_HorizontalTail_MOMENT_ARM := "aircraft:horizontal_tail:moment_arm".
Definition Aircraft_HorizontalTail_ROOT_CHORD := "aircraft:horizontal_tail:root_chord".
Definition Aircraft_HorizontalTail_SPAN := "aircraft:horizontal_tail:span".
Definition Aircraft_HorizontalTail_TAPER_RATIO := "aircraft:horizontal_tail:taper_ratio".
Definition Aircraft_HorizontalTail_THICKNESS_TO_CHORD := "aircraft:horizontal_tail:thickness_to_chord".
Definition Aircraft_HorizontalTail_VERTICAL_TAIL_MOUNT_LOCATION :=
    "aircraft:horizontal_tail:vertical_tail_mount_location".
Definition Aircraft_LandingGear_MAIN_GEAR_LOCATION := "aircraft:landing_gear:main_gear_location".
Definition Aircraft_LandingGear_TAIL_HOOK_MASS_SCALER := "aircraft:landing_gear:tail_hook_mass_scaler".
Definition Aircraft_Nacelle_MASS := "aircraft:nacelle:mass".
Definition Aircraft_Nacelle_MASS_SCALER := "aircraft:nacelle:mass_scaler".
Definition Aircraft_Nacelle_MASS_SPECIFIC := "aircraft:nacelle:mass_specific".
Definition Aircraft_Nacelle_SURFACE_AREA := "aircraft:nacelle:surface_area".
Definition Aircraft_Propulsion_ENGINE_POSITION_FACTOR := "aircraft:propulsion:engine_position_factor".
Definition Aircraft_Propulsion_MISC_MASS_SCALER := "aircraft:propulsion:misc_mass_scaler".
Definition Aircraft_Propulsion_TOTAL_ENGINE_MASS := "aircraft:propulsion:total_engine_mass".
Definition Aircraft_Propulsion_TOTAL_ENGINE_POD_MASS := "aircraft:propulsion:total_engine_pod_mass".
Definition Aircraft_Propulsion_TOTAL_NUM_ENGINES := "aircraft:propulsion:total_num_engines".
Definition Aircraft_Propulsion_TOTAL_NUM_WING_ENGINES := "aircraft:propulsion:total_num_wing_engines".
Definition Aircraft_Strut_ATTACHMENT_LOCATION_DIMENSIONLESS := "aircraft:strut:attachment_location_dimensionless".
Definition Aircraft_Strut_MASS := "aircraft:strut:mass".
Definition Aircraft_Strut_MASS_COEFFICIENT := "aircraft:strut:mass_coefficient".
Definition Aircraft_VerticalTail_AREA := "aircraft:vertical_tail:area".
Definition Aircraft_VerticalTail_ASPECT_RATIO := "aircraft:vertical_tail:aspect_ratio".
Definition Aircraft_VerticalTail_MASS := "aircraft:vertical_tail:mass".
Definition Aircraft_VerticalTail_MASS_COEFFICIENT := "aircraft:vertical_tail:mass_coefficient".
Definition Aircraft_VerticalTail_MASS_SCALER := "aircraft:vertical_tail:mass_scaler".
Definition Aircraft_VerticalTail_MOMENT_ARM := "aircraft:vertical_tail:moment_arm".
Definition Aircraft_VerticalTail_ROOT_CHORD := "aircraft:vertical_tail:root_chord".
Definition Aircraft_VerticalTail_SPAN := "aircraft:vertical_tail:span".
Definition Aircraft_VerticalTail_SWEEP := "aircraft:vertical_tail:sweep".
Definition Aircraft_VerticalTail_TAPER_RATIO := "aircraft:vertical_tail:taper_ratio".
Definition Aircraft_VerticalTail_THICKNESS_TO_CHORD := "aircraft:vertical_tail:thickness_to_chord".
Definition Aircraft_Wing_AREA := "aircraft:wing:area".
Definition Aircraft_Wing_ASPECT_RATIO := "aircraft:wing:aspect_ratio".
Definition Aircraft_Wing_FOLDING_AREA := "aircraft:wing:folding_area".
Definition Aircraft_Wing_FOLD_MASS := "aircraft:wing:fold_mass".
Definition Aircraft_Wing_FOLD_MASS_COEFFICIENT := "aircraft:wing:fold_mass_coefficient".
Definition Aircraft_Wing_HAS_FOLD := "aircraft:wing:has_fold".
Definition Aircraft_Wing_HAS_STRUT := "aircraft:wing:has_strut".
Definition Aircraft_Wing_MASS := "aircraft:wing:mass".
Definition Aircraft_Wing_MASS_SCALER := "aircraft:wing:mass_scaler".
Definition Aircraft_Wing_MATERIAL_FACTOR := "aircraft:wing:material_factor".
Definition Aircraft_Wing_SPAN := "aircraft:wing:span".
Definition Aircraft_Wing_SWEEP := "aircraft:wing:sweep".
Definition Aircraft_Wing_TAPER_RATIO := "aircraft:wing:taper_ratio".
Definition Settings_VERBOSITY := "settings:verbosity".
Definition v_TMS_spec_mass := "TMS_spec_mass".
Definition v_aug_mass := "aug_mass".
Definition v_battery_eff := "battery_eff".
Definition v_battery_energy := "battery_energy".
Definition v_c_gear_loc := "c_gear_loc".
Definition v_c_strut_braced := "c_strut_braced".
Definition v_half_sweep := "half_sweep".
Definition v_inverter_eff := "inverter_eff".
Definition v_inverter_spec_mass := "inverter_spec_mass".
Definition v_isolated_wing_mass := "isolated_wing_mass".
Definition v_loc_MAC_vtail := "loc_MAC_vtail".
Definition v_max_amp_per_wire := "max_amp_per_wire".
Definition v_max_mach := "max_mach".
Definition v_min_dive_vel := "min_dive_vel".
Definition v_motor_eff := "motor_eff".
Definition v_motor_power := "motor_power".
Definition v_motor_spec_mass := "motor_spec_mass".
Definition v_motor_voltage := "motor_voltage".
Definition v_payload_mass_des := "payload_mass_des".
Definition v_payload_mass_max := "payload_mass_max".
Definition v_pylon_mass := "pylon_mass".
Definition v_rho_battery := "rho_battery".
Definition v_rho_wire := "rho_wire".
Definition v_safety_factor := "safety_factor".
Definition v_transmission_eff := "transmission_eff".
Definition v_wire_area := "wire_area".


(** StrutAndFoldMass.compute, /repo/aviary/subsystems/mass/gasp_based/wing.py L296-317 (one engine type or one node) *)
Definition StrutAndFoldMassStrut_compute (op : options) (e : env) : list (string * R) :=
  let isolated_wing_wt := e v_isolated_wing_mass * GRAV_ENGLISH_LBM in  (* L297 *)
  let c_strut_mass := e Aircraft_Strut_MASS_COEFFICIENT in  (* L300 *)
  let strut_wt := c_strut_mass * isolated_wing_wt in  (* L301 *)
  let fold_wt := 0 in  (* L314 *)
  let o_Strut_MASS := strut_wt / GRAV_ENGLISH_LBM in  (* L316 *)
  let o_Wing_FOLD_MASS := fold_wt / GRAV_ENGLISH_LBM in  (* L317 *)
  [(Aircraft_Strut_MASS, o_Strut_MASS);
   (Aircraft_Wing_FOLD_MASS, o_Wing_FOLD_MASS)].

(** StrutAndFoldMass.compute_partials, /repo/aviary/subsystems/mass/gasp_based/wing.py L319-349 *)
Definition StrutAndFoldMassStrut_partials (op : options) (e : env) : list (string * string * R) :=
  let isolated_wing_wt := e v_isolated_wing_mass * GRAV_ENGLISH_LBM in  (* L320 *)
  let c_strut_mass := e Aircraft_Strut_MASS_COEFFICIENT in  (* L323 *)
  let d_Strut_MASS__Strut_MASS_COEFFICIENT := isolated_wing_wt / GRAV_ENGLISH_LBM in  (* L325 *)
  let d_Strut_MASS__isolated_wing_mass := c_strut_mass in  (* L328 *)
  [(Aircraft_Strut_MASS, Aircraft_Strut_MASS_COEFFICIENT, d_Strut_MASS__Strut_MASS_COEFFICIENT);
   (Aircraft_Strut_MASS, v_isolated_wing_mass, d_Strut_MASS__isolated_wing_mass)].

(** Inputs, outputs and declared partials: /repo/aviary/subsystems/mass/gasp_based/wing.py L263-294 *)
Definition StrutAndFoldMassStrut (op : options) : comp := {|
  c_ins := [v_isolated_wing_mass;
            Aircraft_Strut_MASS_COEFFICIENT];
  c_outs := [Aircraft_Strut_MASS;
             Aircraft_Wing_FOLD_MASS];
  c_decl := [(Aircraft_Strut_MASS, Aircraft_Strut_MASS_COEFFICIENT, 0);
             (Aircraft_Strut_MASS, v_isolated_wing_mass, 0)];
  c_run := StrutAndFoldMassStrut_compute op; c_jac := StrutAndFoldMassStrut_partials op |}.

(** StrutAndFoldMass.compute, /repo/aviary/subsystems/mass/gasp_based/wing.py L296-317 (one engine type or one node) *)
Definition StrutAndFoldMassFold_compute (op : options) (e : env) : list (string * R) :=
  let isolated_wing_wt := e v_isolated_wing_mass * GRAV_ENGLISH_LBM in  (* L297 *)
  let strut_wt := 0 in  (* L303 *)
  let wing_area := e Aircraft_Wing_AREA in  (* L306 *)
  let folding_area := e Aircraft_Wing_FOLDING_AREA in  (* L307 *)
  let c_wing_fold := e Aircraft_Wing_FOLD_MASS_COEFFICIENT in  (* L308 *)
  let wt_per_area := isolated_wing_wt / wing_area in  (* L310 *)
  let temp_fold_wt := folding_area * wt_per_area in  (* L311 *)
  let fold_wt := c_wing_fold * temp_fold_wt in  (* L312 *)
  let o_Strut_MASS := strut_wt / GRAV_ENGLISH_LBM in  (* L316 *)
  let o_Wing_FOLD_MASS := fold_wt / GRAV_ENGLISH_LBM in  (* L317 *)
  [(Aircraft_Strut_MASS, o_Strut_MASS);
   (Aircraft_Wing_FOLD_MASS, o_Wing_FOLD_MASS)].

(** StrutAndFoldMass.compute_partials, /repo/aviary/subsystems/mass/gasp_based/wing.py L319-349 *)
Definition StrutAndFoldMassFold_partials (op : options) (e : env) : list (string * string * R) :=
  let isolated_wing_wt := e v_isolated_wing_mass * GRAV_ENGLISH_LBM in  (* L320 *)
  let wing_area := e Aircraft_Wing_AREA in  (* L331 *)
  let folding_area := e Aircraft_Wing_FOLDING_AREA in  (* L332 *)
  let c_wing_fold := e Aircraft_Wing_FOLD_MASS_COEFFICIENT in  (* L333 *)
  let wt_per_area := isolated_wing_wt / wing_area in  (* L335 *)
  let temp_fold_wt := folding_area * wt_per_area in  (* L336 *)
  let d_Wing_FOLD_MASS__Wing_AREA := - c_wing_fold * folding_area * isolated_wing_wt / wing_area ^ 2 /
      GRAV_ENGLISH_LBM in  (* L338 *)
  let d_Wing_FOLD_MASS__Wing_FOLDING_AREA := c_wing_fold * wt_per_area / GRAV_ENGLISH_LBM in  (* L341 *)
  let d_Wing_FOLD_MASS__Wing_FOLD_MASS_COEFFICIENT := temp_fold_wt / GRAV_ENGLISH_LBM in  (* L344 *)
  let d_Wing_FOLD_MASS__isolated_wing_mass := c_wing_fold * folding_area / wing_area in  (* L347 *)
  [(Aircraft_Wing_FOLD_MASS, Aircraft_Wing_AREA, d_Wing_FOLD_MASS__Wing_AREA);
   (Aircraft_Wing_FOLD_MASS, Aircraft_Wing_FOLDING_AREA, d_Wing_FOLD_MASS__Wing_FOLDING_AREA);
   (Aircraft_Wing_FOLD_MASS, Aircraft_Wing_FOLD_MASS_COEFFICIENT, d_Wing_FOLD_MASS__Wing_FOLD_MASS_COEFFICIENT);
   (Aircraft_Wing_FOLD_MASS, v_isolated_wing_mass, d_Wing_FOLD_MASS__isolated_wing_mass)].

(** Inputs, outputs and declared partials: /repo/aviary/subsystems/mass/gasp_based/wing.py L263-294 *)
Definition StrutAndFoldMassFold (op : options) : comp := {|
  c_ins := [v_isolated_wing_mass;
            Aircraft_Wing_AREA;
            Aircraft_Wing_FOLDING_AREA;
            Aircraft_Wing_FOLD_MASS_COEFFICIENT];
  c_outs := [Aircraft_Strut_MASS;
             Aircraft_Wing_FOLD_MASS];
  c_decl := [(Aircraft_Wing_FOLD_MASS, Aircraft_Wing_AREA, 0);
             (Aircraft_Wing_FOLD_MASS, Aircraft_Wing_FOLDING_AREA, 0);
             (Aircraft_Wing_FOLD_MASS, Aircraft_Wing_FOLD_MASS_COEFFICIENT, 0);
             (Aircraft_Wing_FOLD_MASS, v_isolated_wing_mass, 0)];
  c_run := StrutAndFoldMassFold_compute op; c_jac := StrutAndFoldMassFold_partials op |}.

(** StrutAndFoldMass.compute, /repo/aviary/subsystems/mass/gasp_based/wing.py L296-317 (one engine type or one node) *)
Definition StrutAndFoldMassBoth_compute (op : options) (e : env) : list (string * R) :=
  let isolated_wing_wt := e v_isolated_wing_mass * GRAV_ENGLISH_LBM in  (* L297 *)
  let c_strut_mass := e Aircraft_Strut_MASS_COEFFICIENT in  (* L300 *)
  let strut_wt := c_strut_mass * isolated_wing_wt in  (* L301 *)
  let wing_area := e Aircraft_Wing_AREA in  (* L306 *)
  let folding_area := e Aircraft_Wing_FOLDING_AREA in  (* L307 *)
  let c_wing_fold := e Aircraft_Wing_FOLD_MASS_COEFFICIENT in  (* L308 *)
  let wt_per_area := isolated_wing_wt / wing_area in  (* L310 *)
  let temp_fold_wt := folding_area * wt_per_area in  (* L311 *)
  let fold_wt := c_wing_fold * temp_fold_wt in  (* L312 *)
  let o_Strut_MASS := strut_wt / GRAV_ENGLISH_LBM in  (* L316 *)
  let o_Wing_FOLD_MASS := fold_wt / GRAV_ENGLISH_LBM in  (* L317 *)
  [(Aircraft_Strut_MASS, o_Strut_MASS);
   (Aircraft_Wing_FOLD_MASS, o_Wing_FOLD_MASS)].

(** StrutAndFoldMass.compute_partials, /repo/aviary/subsystems/mass/gasp_based/wing.py L319-349 *)
Definition StrutAndFoldMassBoth_partials (op : options) (e : env) : list (string * string * R) :=
  let isolated_wing_wt := e v_isolated_wing_mass * GRAV_ENGLISH_LBM in  (* L320 *)
  let c_strut_mass := e Aircraft_Strut_MASS_COEFFICIENT in  (* L323 *)
  let d_Strut_MASS__Strut_MASS_COEFFICIENT := isolated_wing_wt / GRAV_ENGLISH_LBM in  (* L325 *)
  let d_Strut_MASS__isolated_wing_mass := c_strut_mass in  (* L328 *)
  let wing_area := e Aircraft_Wing_AREA in  (* L331 *)
  let folding_area := e Aircraft_Wing_FOLDING_AREA in  (* L332 *)
  let c_wing_fold := e Aircraft_Wing_FOLD_MASS_COEFFICIENT in  (* L333 *)
  let wt_per_area := isolated_wing_wt / wing_area in  (* L335 *)
  let temp_fold_wt := folding_area * wt_per_area in  (* L336 *)
  let d_Wing_FOLD_MASS__Wing_AREA := - c_wing_fold * folding_area * isolated_wing_wt / wing_area ^ 2 /
      GRAV_ENGLISH_LBM in  (* L338 *)
  let d_Wing_FOLD_MASS__Wing_FOLDING_AREA := c_wing_fold * wt_per_area / GRAV_ENGLISH_LBM in  (* L341 *)
  let d_Wing_FOLD_MASS__Wing_FOLD_MASS_COEFFICIENT := temp_fold_wt / GRAV_ENGLISH_LBM in  (* L344 *)
  let d_Wing_FOLD_MASS__isolated_wing_mass := c_wing_fold * folding_area / wing_area in  (* L347 *)
  [(Aircraft_Strut_MASS, Aircraft_Strut_MASS_COEFFICIENT, d_Strut_MASS__Strut_MASS_COEFFICIENT);
   (Aircraft_Strut_MASS, v_isolated_wing_mass, d_Strut_MASS__isolated_wing_mass);
   (Aircraft_Wing_FOLD_MASS, Aircraft_Wing_AREA, d_Wing_FOLD_MASS__Wing_AREA);
   (Aircraft_Wing_FOLD_MASS, Aircraft_Wing_FOLDING_AREA, d_Wing_FOLD_MASS__Wing_FOLDING_AREA);
   (Aircraft_Wing_FOLD_MASS, Aircraft_Wing_FOLD_MASS_COEFFICIENT, d_Wing_FOLD_MASS__Wing_FOLD_MASS_COEFFICIENT);
   (Aircraft_Wing_FOLD_MASS, v_isolated_wing_mass, d_Wing_FOLD_MASS__isolated_wing_mass)].

(** Inputs, outputs and declared partials: /repo/aviary/subsystems/mass/gasp_based/wing.py L263-294 *)
Definition StrutAndFoldMassBoth (op : options) : comp := {|
  c_ins := [v_isolated_wing_mass;
            Aircraft_Strut_MASS_COEFFICIENT;
            Aircraft_Wing_AREA;
            Aircraft_Wing_FOLDING_AREA;
            Aircraft_Wing_FOLD_MASS_COEFFICIENT];
  c_outs := [Aircraft_Strut_MASS;
             Aircraft_Wing_FOLD_MASS];
  c_decl := [(Aircraft_Strut_MASS, Aircraft_Strut_MASS_COEFFICIENT, 0);
             (Aircraft_Strut_MASS, v_isolated_wing_mass, 0);
             (Aircraft_Wing_FOLD_MASS, Aircraft_Wing_AREA, 0);
             (Aircraft_Wing_FOLD_MASS, Aircraft_Wing_FOLDING_AREA, 0);
             (Aircraft_Wing_FOLD_MASS, Aircraft_Wing_FOLD_MASS_COEFFICIENT, 0);
             (Aircraft_Wing_FOLD_MASS, v_isolated_wing_mass, 0)];
  c_run := StrutAndFoldMassBoth_compute op; c_jac := StrutAndFoldMassBoth_partials op |}.

(** StrutAndFoldMass.compute, /repo/aviary/subsystems/mass/gasp_based/wing.py L296-317 (one engine type or one node) *)
Definition StrutAndFoldMassNone_compute (op : options) (e : env) : list (string * R) :=
  let isolated_wing_wt := e v_isolated_wing_mass * GRAV_ENGLISH_LBM in  (* L297 *)
  let strut_wt := 0 in  (* L303 *)
  let fold_wt := 0 in  (* L314 *)
  let o_Strut_MASS := strut_wt / GRAV_ENGLISH_LBM in  (* L316 *)
  let o_Wing_FOLD_MASS := fold_wt / GRAV_ENGLISH_LBM in  (* L317 *)
  [(Aircraft_Strut_MASS, o_Strut_MASS);
   (Aircraft_Wing_FOLD_MASS, o_Wing_FOLD_MASS)].

(** StrutAndFoldMass.compute_partials, /repo/aviary/subsystems/mass/gasp_based/wing.py L319-349 *)
Definition StrutAndFoldMassNone_partials (op : options) (e : env) : list (string * string * R) :=
  let isolated_wing_wt := e v_isolated_wing_mass * GRAV_ENGLISH_LBM in  (* L320 *)
  [].

(** Inputs, outputs and declared partials: /repo/aviary/subsystems/mass/gasp_based/wing.py L263-294 *)
Definition StrutAndFoldMassNone (op : options) : comp := {|
  c_ins := [v_isolated_wing_mass];
  c_outs := [Aircraft_Strut_MASS;
             Aircraft_Wing_FOLD_MASS];
  c_decl := [];
  c_run := StrutAndFoldMassNone_compute op; c_jac := StrutAndFoldMassNone_partials op |}.

(** WingMassTotal.compute, /repo/aviary/subsystems/mass/gasp_based/wing.py L372-380 (one engine type or one node) *)
Definition WingMassTotal_compute (op : options) (e : env) : list (string * R) :=
  let CK8 := e Aircraft_Wing_MASS_SCALER in  (* L373 *)
  let isolated_wing_wt := e v_isolated_wing_mass * GRAV_ENGLISH_LBM in  (* L374 *)
  let strut_wt := e Aircraft_Strut_MASS * GRAV_ENGLISH_LBM in  (* L376 *)
  let fold_wt := e Aircraft_Wing_FOLD_MASS * GRAV_ENGLISH_LBM in  (* L377 *)
  let total_wing_wt := isolated_wing_wt + strut_wt + fold_wt in  (* L379 *)
  let o_Wing_MASS := CK8 * total_wing_wt / GRAV_ENGLISH_LBM in  (* L380 *)
  [(Aircraft_Wing_MASS, o_Wing_MASS)].

(** WingMassTotal.compute_partials, /repo/aviary/subsystems/mass/gasp_based/wing.py L382-396 *)
Definition WingMassTotal_partials (op : options) (e : env) : list (string * string * R) :=
  let CK8 := e Aircraft_Wing_MASS_SCALER in  (* L383 *)
  let isolated_wing_wt := e v_isolated_wing_mass * GRAV_ENGLISH_LBM in  (* L384 *)
  let strut_wt := e Aircraft_Strut_MASS * GRAV_ENGLISH_LBM in  (* L385 *)
  let fold_wt := e Aircraft_Wing_FOLD_MASS * GRAV_ENGLISH_LBM in  (* L386 *)
  let d_Wing_MASS__isolated_wing_mass := CK8 in  (* L388 *)
  let d_Wing_MASS__Strut_MASS := CK8 in  (* L390 *)
  let d_Wing_MASS__Wing_FOLD_MASS := CK8 in  (* L392 *)
  let d_Wing_MASS__Wing_MASS_SCALER := (isolated_wing_wt + strut_wt + fold_wt) / GRAV_ENGLISH_LBM in  (* L394 *)
  [(Aircraft_Wing_MASS, v_isolated_wing_mass, d_Wing_MASS__isolated_wing_mass);
   (Aircraft_Wing_MASS, Aircraft_Strut_MASS, d_Wing_MASS__Strut_MASS);
   (Aircraft_Wing_MASS, Aircraft_Wing_FOLD_MASS, d_Wing_MASS__Wing_FOLD_MASS);
   (Aircraft_Wing_MASS, Aircraft_Wing_MASS_SCALER, d_Wing_MASS__Wing_MASS_SCALER)].

(** Inputs, outputs and declared partials: /repo/aviary/subsystems/mass/gasp_based/wing.py L355-370 *)
Definition WingMassTotal (op : options) : comp := {|
  c_ins := [Aircraft_Wing_MASS_SCALER;
            v_isolated_wing_mass;
            Aircraft_Strut_MASS;
            Aircraft_Wing_FOLD_MASS];
  c_outs := [Aircraft_Wing_MASS];
  c_decl := [(Aircraft_Wing_MASS, Aircraft_Wing_MASS_SCALER, 0);
             (Aircraft_Wing_MASS, v_isolated_wing_mass, 0);
             (Aircraft_Wing_MASS, Aircraft_Strut_MASS, 0);
             (Aircraft_Wing_MASS, Aircraft_Wing_FOLD_MASS, 0)];
  c_run := WingMassTotal_compute op; c_jac := WingMassTotal_partials op |}.

(** MassParameters.compute, /repo/aviary/subsystems/mass/gasp_based/fixed.py L89-167 (one engine type or one node) *)
Definition MassParameters_compute (op : options) (e : env) : list (string * R) :=
  let smooth := ob op Aircraft_Design_SMOOTH_MASS_DISCONTINUITIES in  (* L90 *)
  let sweep_c4 := e Aircraft_Wing_SWEEP in  (* L93 *)
  let taper_ratio := e Aircraft_Wing_TAPER_RATIO in  (* L94 *)
  let AR := e Aircraft_Wing_ASPECT_RATIO in  (* L95 *)
  let wingspan := e Aircraft_Wing_SPAN in  (* L96 *)
  let num_wing_engines := on op Aircraft_Propulsion_TOTAL_NUM_WING_ENGINES in  (* L97 *)
  let max_mach := e v_max_mach in  (* L105 *)
  let strut_x := e Aircraft_Strut_ATTACHMENT_LOCATION_DIMENSIONLESS in  (* L106 *)
  let loc_main_gear := e Aircraft_LandingGear_MAIN_GEAR_LOCATION in  (* L107 *)
  let tan_half_sweep := tan sweep_c4 - (1 - taper_ratio) / (1 + taper_ratio) / AR in  (* L109 *)
  let half_sweep := atan tan_half_sweep in  (* L111 *)
  let cos_half_sweep := cos half_sweep in  (* L112 *)
  let struct_span := wingspan / cos_half_sweep in  (* L113 *)
  let c_material := 1 + 25 / 10 / struct_span ** (5 / 10) in  (* L114 *)
  let c_strut_braced := 1 - strut_x ^ 2 in  (* L115 *)
  let c_gear_loc := 1 in  (* L119 *)
  let c_gear_loc :=  (* L120 *)
    if smooth then
      let c_gear_loc := 95 / 100 * sigmoidX1 loc_main_gear (5 / 1000) (- 1 / 100 / 320) + 1 * sigmoidX1 loc_main_gear
          (5 / 1000) (1 / 100 / 320) in  (* L123 *)
      c_gear_loc
    else
      let c_gear_loc :=  (* L127 *)
        if eqb loc_main_gear 0 then
          let c_gear_loc := 95 / 100 in  (* L128 *)
          c_gear_loc
        else
          c_gear_loc in
      c_gear_loc in
  let c_eng_pos :=  (* L130 *)
    if smooth then
      let c_eng_pos := 1 * sigmoidX1 max_mach (75 / 100) (- 1 / 320) + 105 / 100 * sigmoidX1 max_mach (75 / 100) (1 /
          320) in  (* L131 *)
      let c_eng_pos :=  (* L137 *)
        if ((eqb num_wing_engines 2) || (eqb num_wing_engines 3))%bool then
          let c_eng_pos := 98 / 100 * sigmoidX1 max_mach (75 / 100) (- 1 / 320) + 95 / 100 * sigmoidX1 max_mach (75 /
              100) (1 / 320) in  (* L138 *)
          c_eng_pos
        else
          c_eng_pos in
      let c_eng_pos :=  (* L141 *)
        if eqb num_wing_engines 4 then
          let c_eng_pos := 95 / 100 * sigmoidX1 max_mach (75 / 100) (- 1 / 320) + 9 / 10 * sigmoidX1 max_mach (75 /
              100) (1 / 320) in  (* L142 *)
          c_eng_pos
        else
          c_eng_pos in
      c_eng_pos
    else
      let c_eng_pos :=  (* L148 *)
        if ltb max_mach (75 / 100) then
          let c_eng_pos := 1 in  (* L149 *)
          c_eng_pos
        else
          let c_eng_pos := 105 / 100 in  (* L151 *)
          c_eng_pos in
      let c_eng_pos :=  (* L152 *)
        if ((eqb num_wing_engines 2) || (eqb num_wing_engines 3))%bool then
          let c_eng_pos :=  (* L153 *)
            if ltb max_mach (75 / 100) then
              let c_eng_pos := 98 / 100 in  (* L154 *)
              c_eng_pos
            else
              let c_eng_pos := 95 / 100 in  (* L156 *)
              c_eng_pos in
          c_eng_pos
        else
          c_eng_pos in
      let c_eng_pos :=  (* L157 *)
        if eqb num_wing_engines 4 then
          let c_eng_pos :=  (* L158 *)
            if ltb max_mach (75 / 100) then
              let c_eng_pos := 95 / 100 in  (* L159 *)
              c_eng_pos
            else
              let c_eng_pos := 9 / 10 in  (* L161 *)
              c_eng_pos in
          c_eng_pos
        else
          c_eng_pos in
      c_eng_pos in
  let o_Wing_MATERIAL_FACTOR := c_material in  (* L163 *)
  let o_c_strut_braced := c_strut_braced in  (* L164 *)
  let o_c_gear_loc := c_gear_loc in  (* L165 *)
  let o_Propulsion_ENGINE_POSITION_FACTOR := c_eng_pos in  (* L166 *)
  let o_half_sweep := half_sweep in  (* L167 *)
  [(Aircraft_Wing_MATERIAL_FACTOR, o_Wing_MATERIAL_FACTOR);
   (v_c_strut_braced, o_c_strut_braced);
   (v_c_gear_loc, o_c_gear_loc);
   (Aircraft_Propulsion_ENGINE_POSITION_FACTOR, o_Propulsion_ENGINE_POSITION_FACTOR);
   (v_half_sweep, o_half_sweep)].

(** MassParameters.compute_partials, /repo/aviary/subsystems/mass/gasp_based/fixed.py L169-248 *)
Definition MassParameters_partials (op : options) (e : env) : list (string * string * R) :=
  let smooth := ob op Aircraft_Design_SMOOTH_MASS_DISCONTINUITIES in  (* L170 *)
  let sweep_c4 := e Aircraft_Wing_SWEEP in  (* L171 *)
  let taper_ratio := e Aircraft_Wing_TAPER_RATIO in  (* L172 *)
  let AR := e Aircraft_Wing_ASPECT_RATIO in  (* L173 *)
  let wingspan := e Aircraft_Wing_SPAN in  (* L174 *)
  let num_wing_engines := on op Aircraft_Propulsion_TOTAL_NUM_WING_ENGINES in  (* L175 *)
  let max_mach := e v_max_mach in  (* L176 *)
  let strut_x := e Aircraft_Strut_ATTACHMENT_LOCATION_DIMENSIONLESS in  (* L177 *)
  let loc_main_gear := e Aircraft_LandingGear_MAIN_GEAR_LOCATION in  (* L178 *)
  let tan_half_sweep := tan sweep_c4 - (1 - taper_ratio) / (1 + taper_ratio) / AR in  (* L180 *)
  let half_sweep := atan tan_half_sweep in  (* L181 *)
  let cos_half_sweep := cos half_sweep in  (* L182 *)
  let struct_span := wingspan / cos_half_sweep in  (* L183 *)
  let dTanHS_dSC4 := 1 / cos sweep_c4 ^ 2 in  (* L185 *)
  let dTanHS_TR := - (1 / AR) * ((1 + taper_ratio) * - 1 - (1 - taper_ratio)) / (1 + taper_ratio) ^ 2 in  (* L186 *)
  let dTanHS_dAR := (1 - taper_ratio) / (1 + taper_ratio) / AR ^ 2 in  (* L189 *)
  let d_Wing_MATERIAL_FACTOR__Wing_SPAN := - 5 / 10 * (25 / 10) / struct_span ** (15 / 10) * (1 / cos_half_sweep) in  (* L191 *)
  let d_Wing_MATERIAL_FACTOR__Wing_SWEEP := - 5 / 10 * (25 / 10) / struct_span ** (15 / 10) * (- wingspan /
      cos_half_sweep ^ 2) * - sin half_sweep / (tan_half_sweep ^ 2 + 1) * dTanHS_dSC4 in  (* L194 *)
  let d_Wing_MATERIAL_FACTOR__Wing_TAPER_RATIO := - 5 / 10 * (25 / 10) / struct_span ** (15 / 10) * (- wingspan /
      cos_half_sweep ^ 2) * - sin half_sweep / (tan_half_sweep ^ 2 + 1) * dTanHS_TR in  (* L203 *)
  let d_Wing_MATERIAL_FACTOR__Wing_ASPECT_RATIO := - 5 / 10 * (25 / 10) / struct_span ** (15 / 10) * (- wingspan /
      cos_half_sweep ^ 2) * - sin half_sweep / (tan_half_sweep ^ 2 + 1) * dTanHS_dAR in  (* L212 *)
  let d_Propulsion_ENGINE_POSITION_FACTOR__max_mach :=  (* L222 *)
    if smooth then
      let d_Propulsion_ENGINE_POSITION_FACTOR__max_mach := - dSigmoidX1 max_mach (75 / 100) (1 / 320) + 105 / 100 *
          dSigmoidX1 max_mach (75 / 100) (1 / 320) in  (* L223 *)
      let d_Propulsion_ENGINE_POSITION_FACTOR__max_mach :=  (* L226 *)
        if ((eqb num_wing_engines 2) || (eqb num_wing_engines 3))%bool then
          let d_Propulsion_ENGINE_POSITION_FACTOR__max_mach := - 98 / 100 * dSigmoidX1 max_mach (75 / 100) (1 / 320) +
              95 / 100 * dSigmoidX1 max_mach (75 / 100) (1 / 320) in  (* L227 *)
          d_Propulsion_ENGINE_POSITION_FACTOR__max_mach
        else
          d_Propulsion_ENGINE_POSITION_FACTOR__max_mach in
      let d_Propulsion_ENGINE_POSITION_FACTOR__max_mach :=  (* L230 *)
        if eqb num_wing_engines 4 then
          let d_Propulsion_ENGINE_POSITION_FACTOR__max_mach := - 95 / 100 * dSigmoidX1 max_mach (75 / 100) (1 / 320) +
              9 / 10 * dSigmoidX1 max_mach (75 / 100) (1 / 320) in  (* L231 *)
          d_Propulsion_ENGINE_POSITION_FACTOR__max_mach
        else
          d_Propulsion_ENGINE_POSITION_FACTOR__max_mach in
      d_Propulsion_ENGINE_POSITION_FACTOR__max_mach
    else
      let d_Propulsion_ENGINE_POSITION_FACTOR__max_mach := 0 in  (* L235 *)
      d_Propulsion_ENGINE_POSITION_FACTOR__max_mach in
  let d_half_sweep__Wing_SWEEP := 1 / (tan_half_sweep ^ 2 + 1) * dTanHS_dSC4 in  (* L237 *)
  let d_half_sweep__Wing_TAPER_RATIO := 1 / (tan_half_sweep ^ 2 + 1) * dTanHS_TR in  (* L238 *)
  let d_half_sweep__Wing_ASPECT_RATIO := 1 / (tan_half_sweep ^ 2 + 1) * dTanHS_dAR in  (* L239 *)
  let d_c_strut_braced__Strut_ATTACHMENT_LOCATION_DIMENSIONLESS := - 2 * strut_x in  (* L241 *)
  let d_c_gear_loc__LandingGear_MAIN_GEAR_LOCATION :=  (* L243 *)
    if smooth then
      let d_c_gear_loc__LandingGear_MAIN_GEAR_LOCATION := 95 / 100 * - 100 * dSigmoidX1 loc_main_gear (5 / 1000) (1 /
          100 / 320) + 1 * 100 * dSigmoidX1 loc_main_gear (5 / 1000) (1 / 100 / 320) in  (* L244 *)
      d_c_gear_loc__LandingGear_MAIN_GEAR_LOCATION
    else
      let d_c_gear_loc__LandingGear_MAIN_GEAR_LOCATION := 0 in  (* L248 *)
      d_c_gear_loc__LandingGear_MAIN_GEAR_LOCATION in
  [(Aircraft_Wing_MATERIAL_FACTOR, Aircraft_Wing_SPAN, d_Wing_MATERIAL_FACTOR__Wing_SPAN);
   (Aircraft_Wing_MATERIAL_FACTOR, Aircraft_Wing_SWEEP, d_Wing_MATERIAL_FACTOR__Wing_SWEEP);
   (Aircraft_Wing_MATERIAL_FACTOR, Aircraft_Wing_TAPER_RATIO, d_Wing_MATERIAL_FACTOR__Wing_TAPER_RATIO);
   (Aircraft_Wing_MATERIAL_FACTOR, Aircraft_Wing_ASPECT_RATIO, d_Wing_MATERIAL_FACTOR__Wing_ASPECT_RATIO);
   (Aircraft_Propulsion_ENGINE_POSITION_FACTOR, v_max_mach, d_Propulsion_ENGINE_POSITION_FACTOR__max_mach);
   (v_half_sweep, Aircraft_Wing_SWEEP, d_half_sweep__Wing_SWEEP);
   (v_half_sweep, Aircraft_Wing_TAPER_RATIO, d_half_sweep__Wing_TAPER_RATIO);
   (v_half_sweep, Aircraft_Wing_ASPECT_RATIO, d_half_sweep__Wing_ASPECT_RATIO);
   (v_c_strut_braced, Aircraft_Strut_ATTACHMENT_LOCATION_DIMENSIONLESS,
       d_c_strut_braced__Strut_ATTACHMENT_LOCATION_DIMENSIONLESS);
   (v_c_gear_loc, Aircraft_LandingGear_MAIN_GEAR_LOCATION, d_c_gear_loc__LandingGear_MAIN_GEAR_LOCATION)].

(** Inputs, outputs and declared partials: /repo/aviary/subsystems/mass/gasp_based/fixed.py L28-87 *)
Definition MassParameters (op : options) : comp := {|
  c_ins := [Aircraft_Wing_SWEEP;
            Aircraft_Wing_TAPER_RATIO;
            Aircraft_Wing_ASPECT_RATIO;
            Aircraft_Wing_SPAN;
            v_max_mach;
            Aircraft_Strut_ATTACHMENT_LOCATION_DIMENSIONLESS;
            Aircraft_LandingGear_MAIN_GEAR_LOCATION];
  c_outs := [Aircraft_Wing_MATERIAL_FACTOR;
             v_c_strut_braced;
             v_c_gear_loc;
             Aircraft_Propulsion_ENGINE_POSITION_FACTOR;
             v_half_sweep];
  c_decl := [(Aircraft_Wing_MATERIAL_FACTOR, Aircraft_Wing_SPAN, 0);
             (Aircraft_Wing_MATERIAL_FACTOR, Aircraft_Wing_SWEEP, 0);
             (Aircraft_Wing_MATERIAL_FACTOR, Aircraft_Wing_TAPER_RATIO, 0);
             (Aircraft_Wing_MATERIAL_FACTOR, Aircraft_Wing_ASPECT_RATIO, 0);
             (Aircraft_Propulsion_ENGINE_POSITION_FACTOR, v_max_mach, 0);
             (v_half_sweep, Aircraft_Wing_SWEEP, 0);
             (v_half_sweep, Aircraft_Wing_TAPER_RATIO, 0);
             (v_half_sweep, Aircraft_Wing_ASPECT_RATIO, 0);
             (v_c_strut_braced, Aircraft_Strut_ATTACHMENT_LOCATION_DIMENSIONLESS, 0);
             (v_c_strut_braced, Aircraft_Wing_SPAN, 0);
             (v_c_gear_loc, Aircraft_LandingGear_MAIN_GEAR_LOCATION, 0)];
  c_run := MassParameters_compute op; c_jac := MassParameters_partials op |}.

(** PayloadGroup.compute, /repo/aviary/subsystems/mass/gasp_based/fixed.py L310-321 (one engine type or one node) *)
Definition PayloadGroup_compute (op : options) (e : env) : list (string * R) :=
  let pax := on op Aircraft_CrewPayload_NUM_PASSENGERS in  (* L311 *)
  let pax_des := on op Aircraft_CrewPayload_Design_NUM_PASSENGERS in  (* L312 *)
  let pax_mass := e Aircraft_CrewPayload_MASS_PER_PASSENGER_WITH_BAGS in  (* L313 *)
  let cargo_mass := e Aircraft_CrewPayload_CARGO_MASS in  (* L314 *)
  let cargo_mass_des := e Aircraft_CrewPayload_Design_CARGO_MASS in  (* L315 *)
  let cargo_mass_max := e Aircraft_CrewPayload_Design_MAX_CARGO_MASS in  (* L316 *)
  let o_CrewPayload_PASSENGER_PAYLOAD_MASS := pax_mass * pax in  (* L318 *)
  let o_payload_mass_des := pax_mass * pax_des + cargo_mass_des in  (* L319 *)
  let o_payload_mass_max := pax_mass * pax_des + cargo_mass_max in  (* L320 *)
  let o_CrewPayload_TOTAL_PAYLOAD_MASS := pax_mass * pax + cargo_mass in  (* L321 *)
  [(Aircraft_CrewPayload_PASSENGER_PAYLOAD_MASS, o_CrewPayload_PASSENGER_PAYLOAD_MASS);
   (v_payload_mass_des, o_payload_mass_des);
   (v_payload_mass_max, o_payload_mass_max);
   (Aircraft_CrewPayload_TOTAL_PAYLOAD_MASS, o_CrewPayload_TOTAL_PAYLOAD_MASS)].

Definition PayloadGroup_partials (op : options) (e : env) : list (string * string * R) := [].

(** Inputs, outputs and declared partials: /repo/aviary/subsystems/mass/gasp_based/fixed.py L258-308 *)
Definition PayloadGroup (op : options) : comp := {|
  c_ins := [Aircraft_CrewPayload_MASS_PER_PASSENGER_WITH_BAGS;
            Aircraft_CrewPayload_CARGO_MASS;
            Aircraft_CrewPayload_Design_CARGO_MASS;
            Aircraft_CrewPayload_Design_MAX_CARGO_MASS];
  c_outs := [Aircraft_CrewPayload_PASSENGER_PAYLOAD_MASS;
             Aircraft_CrewPayload_TOTAL_PAYLOAD_MASS;
             v_payload_mass_des;
             v_payload_mass_max];
  c_decl := [(Aircraft_CrewPayload_PASSENGER_PAYLOAD_MASS, Aircraft_CrewPayload_MASS_PER_PASSENGER_WITH_BAGS, (on op
      Aircraft_CrewPayload_NUM_PASSENGERS));
             (Aircraft_CrewPayload_TOTAL_PAYLOAD_MASS, Aircraft_CrewPayload_CARGO_MASS, 1);
             (Aircraft_CrewPayload_TOTAL_PAYLOAD_MASS, Aircraft_CrewPayload_MASS_PER_PASSENGER_WITH_BAGS, (on op
                 Aircraft_CrewPayload_NUM_PASSENGERS));
             (v_payload_mass_des, Aircraft_CrewPayload_Design_CARGO_MASS, 1);
             (v_payload_mass_des, Aircraft_CrewPayload_MASS_PER_PASSENGER_WITH_BAGS, (on op
                 Aircraft_CrewPayload_Design_NUM_PASSENGERS));
             (v_payload_mass_max, Aircraft_CrewPayload_Design_MAX_CARGO_MASS, 1);
             (v_payload_mass_max, Aircraft_CrewPayload_MASS_PER_PASSENGER_WITH_BAGS, (on op
                 Aircraft_CrewPayload_Design_NUM_PASSENGERS))];
  c_run := PayloadGroup_compute op; c_jac := PayloadGroup_partials op |}.

(** ElectricAugmentationMass.compute, /repo/aviary/subsystems/mass/gasp_based/fixed.py L418-458 (one engine type or one node) *)
Definition ElectricAugmentationMass_compute (op : options) (e : env) : list (string * R) :=
  let motor_power := e v_motor_power in  (* L419 *)
  let motor_voltage := e v_motor_voltage in  (* L420 *)
  let max_amp_per_wire := e v_max_amp_per_wire in  (* L421 *)
  let safety_factor := e v_safety_factor in  (* L422 *)
  let cable_len := e Aircraft_Electrical_HYBRID_CABLE_LENGTH in  (* L423 *)
  let wire_area := e v_wire_area in  (* L424 *)
  let rho_wire := e v_rho_wire in  (* L425 *)
  let battery_energy := e v_battery_energy in  (* L426 *)
  let motor_eff := e v_motor_eff in  (* L427 *)
  let inverter_eff := e v_inverter_eff in  (* L428 *)
  let transmission_eff := e v_transmission_eff in  (* L429 *)
  let battery_eff := e v_battery_eff in  (* L430 *)
  let rho_battery := e v_rho_battery in  (* L431 *)
  let motor_spec_wt := e v_motor_spec_mass / GRAV_ENGLISH_LBM in  (* L432 *)
  let inverter_spec_wt := e v_inverter_spec_mass / GRAV_ENGLISH_LBM in  (* L433 *)
  let TMS_spec_wt := e v_TMS_spec_mass * GRAV_ENGLISH_LBM in  (* L434 *)
  let num_engines := on op Aircraft_Propulsion_TOTAL_NUM_ENGINES in  (* L435 *)
  let motor_current := 1000 * motor_power / motor_voltage in  (* L437 *)
  let num_wires := motor_current / max_amp_per_wire in  (* L438 *)
  let cable_wt := 115 / 100 * safety_factor * num_wires * cable_len * wire_area * rho_wire * GRAV_ENGLISH_LBM in  (* L439 *)
  let actual_battery_energy := battery_energy / (motor_eff * inverter_eff * transmission_eff * battery_eff) in  (* L442 *)
  let battery_wt := actual_battery_energy / rho_battery in  (* L445 *)
  let motor_wt := motor_power / (746 / 1000) / motor_spec_wt in  (* L446 *)
  let inverter_wt := motor_power / inverter_spec_wt in  (* L447 *)
  let TMS_wt := TMS_spec_wt * motor_power in  (* L448 *)
  let aug_wt := battery_wt + cable_wt + num_engines * inverter_wt + num_engines * motor_wt + num_engines * TMS_wt in  (* L450 *)
  let o_aug_mass := aug_wt / GRAV_ENGLISH_LBM in  (* L458 *)
  [(v_aug_mass, o_aug_mass)].

(** ElectricAugmentationMass.compute_partials, /repo/aviary/subsystems/mass/gasp_based/fixed.py L460-574 *)
Definition ElectricAugmentationMass_partials (op : options) (e : env) : list (string * string * R) :=
  let motor_power := e v_motor_power in  (* L461 *)
  let motor_voltage := e v_motor_voltage in  (* L462 *)
  let max_amp_per_wire := e v_max_amp_per_wire in  (* L463 *)
  let safety_factor := e v_safety_factor in  (* L464 *)
  let cable_len := e Aircraft_Electrical_HYBRID_CABLE_LENGTH in  (* L465 *)
  let wire_area := e v_wire_area in  (* L466 *)
  let rho_wire := e v_rho_wire in  (* L467 *)
  let battery_energy := e v_battery_energy in  (* L468 *)
  let motor_eff := e v_motor_eff in  (* L469 *)
  let inverter_eff := e v_inverter_eff in  (* L470 *)
  let transmission_eff := e v_transmission_eff in  (* L471 *)
  let battery_eff := e v_battery_eff in  (* L472 *)
  let rho_battery := e v_rho_battery in  (* L473 *)
  let motor_spec_wt := e v_motor_spec_mass / GRAV_ENGLISH_LBM in  (* L474 *)
  let inverter_spec_wt := e v_inverter_spec_mass / GRAV_ENGLISH_LBM in  (* L475 *)
  let TMS_spec_wt := e v_TMS_spec_mass * GRAV_ENGLISH_LBM in  (* L476 *)
  let num_engines := on op Aircraft_Propulsion_TOTAL_NUM_ENGINES in  (* L477 *)
  let motor_current := 1000 * motor_power / motor_voltage in  (* L479 *)
  let num_wires := motor_current / max_amp_per_wire in  (* L480 *)
  let actual_battery_energy := battery_energy / (motor_eff * inverter_eff * transmission_eff * battery_eff) in  (* L481 *)
  let dCableWt_dMotorPower := 115 / 100 * safety_factor * cable_len * wire_area * rho_wire * GRAV_ENGLISH_LBM * 1000 /
      motor_voltage / max_amp_per_wire in  (* L485 *)
  let dInverterWt_dMotorPower := 1 / inverter_spec_wt in  (* L497 *)
  let dMotorWt_dMotorPower := 1 / (746 / 1000) / motor_spec_wt in  (* L498 *)
  let dTMSwt_dMotorPower := TMS_spec_wt in  (* L499 *)
  let d_aug_mass__motor_power := (dCableWt_dMotorPower + num_engines * dInverterWt_dMotorPower + num_engines *
      dMotorWt_dMotorPower + num_engines * dTMSwt_dMotorPower) / GRAV_ENGLISH_LBM in  (* L501 *)
  let d_aug_mass__motor_voltage := - 115 / 100 * safety_factor * cable_len * wire_area * rho_wire * GRAV_ENGLISH_LBM /
      max_amp_per_wire * 1000 * motor_power / motor_voltage ^ 2 / GRAV_ENGLISH_LBM in  (* L507 *)
  let d_aug_mass__max_amp_per_wire := - 115 / 100 * safety_factor * cable_len * wire_area * rho_wire *
      GRAV_ENGLISH_LBM * motor_current / max_amp_per_wire ^ 2 / GRAV_ENGLISH_LBM in  (* L520 *)
  let d_aug_mass__safety_factor := 115 / 100 * num_wires * cable_len * wire_area * rho_wire in  (* L531 *)
  let d_aug_mass__Electrical_HYBRID_CABLE_LENGTH := 115 / 100 * safety_factor * num_wires * wire_area * rho_wire in  (* L532 *)
  let d_aug_mass__wire_area := 115 / 100 * safety_factor * num_wires * cable_len * rho_wire in  (* L535 *)
  let d_aug_mass__rho_wire := 115 / 100 * safety_factor * num_wires * cable_len * wire_area in  (* L536 *)
  let d_aug_mass__battery_energy := 1 / (motor_eff * inverter_eff * transmission_eff * battery_eff) / rho_battery /
      GRAV_ENGLISH_LBM in  (* L537 *)
  let d_aug_mass__motor_eff := - battery_energy / (motor_eff ^ 2 * inverter_eff * transmission_eff * battery_eff) /
      rho_battery / GRAV_ENGLISH_LBM in  (* L543 *)
  let d_aug_mass__inverter_eff := - battery_energy / (motor_eff * inverter_eff ^ 2 * transmission_eff * battery_eff) /
      rho_battery / GRAV_ENGLISH_LBM in  (* L549 *)
  let d_aug_mass__transmission_eff := - battery_energy / (motor_eff * inverter_eff * transmission_eff ^ 2 *
      battery_eff) / rho_battery / GRAV_ENGLISH_LBM in  (* L555 *)
  let d_aug_mass__battery_eff := - battery_energy / (motor_eff * inverter_eff * transmission_eff * battery_eff ^ 2) /
      rho_battery / GRAV_ENGLISH_LBM in  (* L561 *)
  let d_aug_mass__rho_battery := - actual_battery_energy / rho_battery ^ 2 / GRAV_ENGLISH_LBM in  (* L567 *)
  let d_aug_mass__motor_spec_mass := - num_engines * motor_power / (746 / 1000) / motor_spec_wt ^ 2 / GRAV_ENGLISH_LBM
      ^ 2 in  (* L568 *)
  let d_aug_mass__inverter_spec_mass := - num_engines * motor_power / inverter_spec_wt ^ 2 / GRAV_ENGLISH_LBM ^ 2 in  (* L571 *)
  let d_aug_mass__TMS_spec_mass := num_engines * motor_power in  (* L574 *)
  [(v_aug_mass, v_motor_power, d_aug_mass__motor_power);
   (v_aug_mass, v_motor_voltage, d_aug_mass__motor_voltage);
   (v_aug_mass, v_max_amp_per_wire, d_aug_mass__max_amp_per_wire);
   (v_aug_mass, v_safety_factor, d_aug_mass__safety_factor);
   (v_aug_mass, Aircraft_Electrical_HYBRID_CABLE_LENGTH, d_aug_mass__Electrical_HYBRID_CABLE_LENGTH);
   (v_aug_mass, v_wire_area, d_aug_mass__wire_area);
   (v_aug_mass, v_rho_wire, d_aug_mass__rho_wire);
   (v_aug_mass, v_battery_energy, d_aug_mass__battery_energy);
   (v_aug_mass, v_motor_eff, d_aug_mass__motor_eff);
   (v_aug_mass, v_inverter_eff, d_aug_mass__inverter_eff);
   (v_aug_mass, v_transmission_eff, d_aug_mass__transmission_eff);
   (v_aug_mass, v_battery_eff, d_aug_mass__battery_eff);
   (v_aug_mass, v_rho_battery, d_aug_mass__rho_battery);
   (v_aug_mass, v_motor_spec_mass, d_aug_mass__motor_spec_mass);
   (v_aug_mass, v_inverter_spec_mass, d_aug_mass__inverter_spec_mass);
   (v_aug_mass, v_TMS_spec_mass, d_aug_mass__TMS_spec_mass)].

(** Inputs, outputs and declared partials: /repo/aviary/subsystems/mass/gasp_based/fixed.py L330-416 *)
Definition ElectricAugmentationMass (op : options) : comp := {|
  c_ins := [v_motor_power;
            v_motor_voltage;
            v_max_amp_per_wire;
            v_safety_factor;
            Aircraft_Electrical_HYBRID_CABLE_LENGTH;
            v_wire_area;
            v_rho_wire;
            v_battery_energy;
            v_motor_eff;
            v_inverter_eff;
            v_transmission_eff;
            v_battery_eff;
            v_rho_battery;
            v_motor_spec_mass;
            v_inverter_spec_mass;
            v_TMS_spec_mass];
  c_outs := [v_aug_mass];
  c_decl := [(v_aug_mass, v_motor_power, 0);
             (v_aug_mass, v_motor_voltage, 0);
             (v_aug_mass, v_max_amp_per_wire, 0);
             (v_aug_mass, v_safety_factor, 0);
             (v_aug_mass, Aircraft_Electrical_HYBRID_CABLE_LENGTH, 0);
             (v_aug_mass, v_wire_area, 0);
             (v_aug_mass, v_rho_wire, 0);
             (v_aug_mass, v_battery_energy, 0);
             (v_aug_mass, v_motor_eff, 0);
             (v_aug_mass, v_inverter_eff, 0);
             (v_aug_mass, v_transmission_eff, 0);
             (v_aug_mass, v_battery_eff, 0);
             (v_aug_mass, v_rho_battery, 0);
             (v_aug_mass, v_motor_spec_mass, 0);
             (v_aug_mass, v_inverter_spec_mass, 0);
             (v_aug_mass, v_TMS_spec_mass, 0)];
  c_run := ElectricAugmentationMass_compute op; c_jac := ElectricAugmentationMass_partials op |}.

(** HorizontalTailMass.compute, /repo/aviary/subsystems/mass/gasp_based/fixed.py L615-649 (one engine type or one node) *)
Definition HorizontalTailMass_compute (op : options) (e : env) : list (string * R) :=
  let gross_wt_initial := e Aircraft_Design_GROSS_MASS * GRAV_ENGLISH_LBM in  (* L616 *)
  let coef_htail := e Aircraft_HorizontalTail_MASS_COEFFICIENT in  (* L617 *)
  let fus_len := e Aircraft_Fuselage_LENGTH in  (* L618 *)
  let span_htail := e Aircraft_HorizontalTail_SPAN in  (* L619 *)
  let hook_fac := e Aircraft_LandingGear_TAIL_HOOK_MASS_SCALER in  (* L620 *)
  let taper_ratio_htail := e Aircraft_HorizontalTail_TAPER_RATIO in  (* L621 *)
  let htail_area := e Aircraft_HorizontalTail_AREA in  (* L622 *)
  let min_dive_vel := e v_min_dive_vel in  (* L623 *)
  let htail_mom_arm := e Aircraft_HorizontalTail_MOMENT_ARM in  (* L624 *)
  let tc_ratio_root_htail := e Aircraft_HorizontalTail_THICKNESS_TO_CHORD in  (* L625 *)
  let root_chord_htail := e Aircraft_HorizontalTail_ROOT_CHORD in  (* L626 *)
  let CK9 := e Aircraft_HorizontalTail_MASS_SCALER in  (* L627 *)
  let FH := gross_wt_initial * coef_htail * fus_len * span_htail * hook_fac * (1 + 2 * taper_ratio_htail) / (1000000 *
      (1 + taper_ratio_htail)) in  (* L629 *)
  let o_HorizontalTail_MASS := CK9 * (350 / GRAV_ENGLISH_LBM * (htail_area * FH * log10 min_dive_vel / (100 *
      htail_mom_arm * tc_ratio_root_htail * root_chord_htail)) ** (54 / 100)) in  (* L639 *)
  [(Aircraft_HorizontalTail_MASS, o_HorizontalTail_MASS)].

(** HorizontalTailMass.compute_partials, /repo/aviary/subsystems/mass/gasp_based/fixed.py L651-874 *)
Definition HorizontalTailMass_partials (op : options) (e : env) : list (string * string * R) :=
  let gross_wt_initial := e Aircraft_Design_GROSS_MASS * GRAV_ENGLISH_LBM in  (* L652 *)
  let coef_htail := e Aircraft_HorizontalTail_MASS_COEFFICIENT in  (* L653 *)
  let fus_len := e Aircraft_Fuselage_LENGTH in  (* L654 *)
  let span_htail := e Aircraft_HorizontalTail_SPAN in  (* L655 *)
  let hook_fac := e Aircraft_LandingGear_TAIL_HOOK_MASS_SCALER in  (* L656 *)
  let taper_ratio_htail := e Aircraft_HorizontalTail_TAPER_RATIO in  (* L657 *)
  let htail_area := e Aircraft_HorizontalTail_AREA in  (* L658 *)
  let min_dive_vel := e v_min_dive_vel in  (* L659 *)
  let htail_mom_arm := e Aircraft_HorizontalTail_MOMENT_ARM in  (* L660 *)
  let tc_ratio_root_htail := e Aircraft_HorizontalTail_THICKNESS_TO_CHORD in  (* L661 *)
  let root_chord_htail := e Aircraft_HorizontalTail_ROOT_CHORD in  (* L662 *)
  let FH := gross_wt_initial * coef_htail * fus_len * span_htail * hook_fac * (1 + 2 * taper_ratio_htail) / (1000000 *
      (1 + taper_ratio_htail)) in  (* L664 *)
  let dFH_dGrossWtInitial := coef_htail * fus_len * span_htail * hook_fac * (1 + 2 * taper_ratio_htail) / (1000000 *
      (1 + taper_ratio_htail)) in  (* L674 *)
  let dFH_dCoefHtail := gross_wt_initial * fus_len * span_htail * hook_fac * (1 + 2 * taper_ratio_htail) / (1000000 *
      (1 + taper_ratio_htail)) in  (* L682 *)
  let dFH_dFusLen := gross_wt_initial * coef_htail * span_htail * hook_fac * (1 + 2 * taper_ratio_htail) / (1000000 *
      (1 + taper_ratio_htail)) in  (* L690 *)
  let dFH_dSpanHtail := gross_wt_initial * coef_htail * fus_len * hook_fac * (1 + 2 * taper_ratio_htail) / (1000000 *
      (1 + taper_ratio_htail)) in  (* L698 *)
  let dFH_dHookFac := gross_wt_initial * coef_htail * fus_len * span_htail * (1 + 2 * taper_ratio_htail) / (1000000 *
      (1 + taper_ratio_htail)) in  (* L706 *)
  let dFH_dTaperRatioHtail := gross_wt_initial * coef_htail * fus_len * span_htail * hook_fac * (1000000 * (1 +
      taper_ratio_htail) * 2 - (1 + 2 * taper_ratio_htail) * 1000000) / (1000000 * (1 + taper_ratio_htail)) ^ 2 in  (* L714 *)
  let d_HorizontalTail_MASS__HorizontalTail_AREA := 350 / GRAV_ENGLISH_LBM * (54 / 100) * (FH * log10 min_dive_vel /
      (100 * htail_mom_arm * tc_ratio_root_htail * root_chord_htail)) ** (54 / 100) * htail_area ** (- 46 / 100) in  (* L727 *)
  let d_HorizontalTail_MASS__Design_GROSS_MASS := 350 * (54 / 100) * (htail_area * log10 min_dive_vel / (100 *
      htail_mom_arm * tc_ratio_root_htail * root_chord_htail)) ** (54 / 100) * FH ** (- 46 / 100) *
      dFH_dGrossWtInitial in  (* L739 *)
  let d_HorizontalTail_MASS__HorizontalTail_MASS_COEFFICIENT := 350 / GRAV_ENGLISH_LBM * (54 / 100) * (htail_area *
      log10 min_dive_vel / (100 * htail_mom_arm * tc_ratio_root_htail * root_chord_htail)) ** (54 / 100) * FH ** (- 46
      / 100) * dFH_dCoefHtail in  (* L751 *)
  let d_HorizontalTail_MASS__Fuselage_LENGTH := 350 / GRAV_ENGLISH_LBM * (54 / 100) * (htail_area * log10 min_dive_vel
      / (100 * htail_mom_arm * tc_ratio_root_htail * root_chord_htail)) ** (54 / 100) * FH ** (- 46 / 100) *
      dFH_dFusLen in  (* L764 *)
  let d_HorizontalTail_MASS__HorizontalTail_SPAN := 350 / GRAV_ENGLISH_LBM * (54 / 100) * (htail_area * log10
      min_dive_vel / (100 * htail_mom_arm * tc_ratio_root_htail * root_chord_htail)) ** (54 / 100) * FH ** (- 46 /
      100) * dFH_dSpanHtail in  (* L777 *)
  let d_HorizontalTail_MASS__LandingGear_TAIL_HOOK_MASS_SCALER := 350 / GRAV_ENGLISH_LBM * (54 / 100) * (htail_area *
      log10 min_dive_vel / (100 * htail_mom_arm * tc_ratio_root_htail * root_chord_htail)) ** (54 / 100) * FH ** (- 46
      / 100) * dFH_dHookFac in  (* L790 *)
  let d_HorizontalTail_MASS__HorizontalTail_TAPER_RATIO := 350 / GRAV_ENGLISH_LBM * (54 / 100) * (htail_area * log10
      min_dive_vel / (100 * htail_mom_arm * tc_ratio_root_htail * root_chord_htail)) ** (54 / 100) * FH ** (- 46 /
      100) * dFH_dTaperRatioHtail in  (* L803 *)
  let d_HorizontalTail_MASS__min_dive_vel := 350 / GRAV_ENGLISH_LBM * (54 / 100) * (htail_area * FH / (100 *
      htail_mom_arm * tc_ratio_root_htail * root_chord_htail)) ** (54 / 100) * log10 min_dive_vel ** (- 46 / 100) /
      (min_dive_vel * ln 10) in  (* L816 *)
  let d_HorizontalTail_MASS__HorizontalTail_MOMENT_ARM := 350 / GRAV_ENGLISH_LBM * (htail_area * FH * log10
      min_dive_vel / (100 * tc_ratio_root_htail * root_chord_htail)) ** (54 / 100) * (- 54 / 100) * htail_mom_arm **
      (- 154 / 100) in  (* L825 *)
  let d_HorizontalTail_MASS__HorizontalTail_THICKNESS_TO_CHORD := 350 / GRAV_ENGLISH_LBM * (htail_area * FH * log10
      min_dive_vel / (100 * htail_mom_arm * root_chord_htail)) ** (54 / 100) * (- 54 / 100) * tc_ratio_root_htail **
      (- 154 / 100) in  (* L838 *)
  let d_HorizontalTail_MASS__HorizontalTail_ROOT_CHORD := 350 / GRAV_ENGLISH_LBM * (htail_area * FH * log10
      min_dive_vel / (100 * htail_mom_arm * tc_ratio_root_htail)) ** (54 / 100) * (- 54 / 100) * root_chord_htail **
      (- 154 / 100) in  (* L851 *)
  let d_HorizontalTail_MASS__HorizontalTail_MASS_SCALER := 350 / GRAV_ENGLISH_LBM * (htail_area * FH * log10
      min_dive_vel / (100 * htail_mom_arm * tc_ratio_root_htail * root_chord_htail)) ** (54 / 100) in  (* L864 *)
  [(Aircraft_HorizontalTail_MASS, Aircraft_HorizontalTail_AREA, d_HorizontalTail_MASS__HorizontalTail_AREA);
   (Aircraft_HorizontalTail_MASS, Aircraft_Design_GROSS_MASS, d_HorizontalTail_MASS__Design_GROSS_MASS);
   (Aircraft_HorizontalTail_MASS, Aircraft_HorizontalTail_MASS_COEFFICIENT,
       d_HorizontalTail_MASS__HorizontalTail_MASS_COEFFICIENT);
   (Aircraft_HorizontalTail_MASS, Aircraft_Fuselage_LENGTH, d_HorizontalTail_MASS__Fuselage_LENGTH);
   (Aircraft_HorizontalTail_MASS, Aircraft_HorizontalTail_SPAN, d_HorizontalTail_MASS__HorizontalTail_SPAN);
   (Aircraft_HorizontalTail_MASS, Aircraft_LandingGear_TAIL_HOOK_MASS_SCALER,
       d_HorizontalTail_MASS__LandingGear_TAIL_HOOK_MASS_SCALER);
   (Aircraft_HorizontalTail_MASS, Aircraft_HorizontalTail_TAPER_RATIO,
       d_HorizontalTail_MASS__HorizontalTail_TAPER_RATIO);
   (Aircraft_HorizontalTail_MASS, v_min_dive_vel, d_HorizontalTail_MASS__min_dive_vel);
   (Aircraft_HorizontalTail_MASS, Aircraft_HorizontalTail_MOMENT_ARM,
       d_HorizontalTail_MASS__HorizontalTail_MOMENT_ARM);
   (Aircraft_HorizontalTail_MASS, Aircraft_HorizontalTail_THICKNESS_TO_CHORD,
       d_HorizontalTail_MASS__HorizontalTail_THICKNESS_TO_CHORD);
   (Aircraft_HorizontalTail_MASS, Aircraft_HorizontalTail_ROOT_CHORD,
       d_HorizontalTail_MASS__HorizontalTail_ROOT_CHORD);
   (Aircraft_HorizontalTail_MASS, Aircraft_HorizontalTail_MASS_SCALER,
       d_HorizontalTail_MASS__HorizontalTail_MASS_SCALER)].

(** Inputs, outputs and declared partials: /repo/aviary/subsystems/mass/gasp_based/fixed.py L580-613 *)
Definition HorizontalTailMass (op : options) : comp := {|
  c_ins := [Aircraft_Design_GROSS_MASS;
            Aircraft_HorizontalTail_MASS_COEFFICIENT;
            Aircraft_Fuselage_LENGTH;
            Aircraft_HorizontalTail_SPAN;
            Aircraft_LandingGear_TAIL_HOOK_MASS_SCALER;
            Aircraft_HorizontalTail_TAPER_RATIO;
            Aircraft_HorizontalTail_AREA;
            v_min_dive_vel;
            Aircraft_HorizontalTail_MOMENT_ARM;
            Aircraft_HorizontalTail_THICKNESS_TO_CHORD;
            Aircraft_HorizontalTail_ROOT_CHORD;
            Aircraft_HorizontalTail_MASS_SCALER];
  c_outs := [Aircraft_HorizontalTail_MASS];
  c_decl := [(Aircraft_HorizontalTail_MASS, Aircraft_HorizontalTail_AREA, 0);
             (Aircraft_HorizontalTail_MASS, Aircraft_Design_GROSS_MASS, 0);
             (Aircraft_HorizontalTail_MASS, Aircraft_HorizontalTail_MASS_COEFFICIENT, 0);
             (Aircraft_HorizontalTail_MASS, Aircraft_Fuselage_LENGTH, 0);
             (Aircraft_HorizontalTail_MASS, Aircraft_HorizontalTail_SPAN, 0);
             (Aircraft_HorizontalTail_MASS, Aircraft_LandingGear_TAIL_HOOK_MASS_SCALER, 0);
             (Aircraft_HorizontalTail_MASS, Aircraft_HorizontalTail_TAPER_RATIO, 0);
             (Aircraft_HorizontalTail_MASS, v_min_dive_vel, 0);
             (Aircraft_HorizontalTail_MASS, Aircraft_HorizontalTail_MOMENT_ARM, 0);
             (Aircraft_HorizontalTail_MASS, Aircraft_HorizontalTail_THICKNESS_TO_CHORD, 0);
             (Aircraft_HorizontalTail_MASS, Aircraft_HorizontalTail_ROOT_CHORD, 0);
             (Aircraft_HorizontalTail_MASS, Aircraft_HorizontalTail_MASS_SCALER, 0)];
  c_run := HorizontalTailMass_compute op; c_jac := HorizontalTailMass_partials op |}.

(** VerticalTailMass.compute, /repo/aviary/subsystems/mass/gasp_based/fixed.py L948-1007 (one engine type or one node) *)
Definition VerticalTailMass_compute (op : options) (e : env) : list (string * R) :=
  let taper_ratio_vtail := e Aircraft_VerticalTail_TAPER_RATIO in  (* L949 *)
  let AR_vtail := e Aircraft_VerticalTail_ASPECT_RATIO in  (* L950 *)
  let quarter_sweep_tail := e Aircraft_VerticalTail_SWEEP in  (* L951 *)
  let span_vtail := e Aircraft_VerticalTail_SPAN in  (* L952 *)
  let gross_wt_initial := e Aircraft_Design_GROSS_MASS * GRAV_ENGLISH_LBM in  (* L953 *)
  let coef_htail := e Aircraft_HorizontalTail_MASS_COEFFICIENT in  (* L954 *)
  let fus_len := e Aircraft_Fuselage_LENGTH in  (* L955 *)
  let span_htail := e Aircraft_HorizontalTail_SPAN in  (* L956 *)
  let hook_fac := e Aircraft_LandingGear_TAIL_HOOK_MASS_SCALER in  (* L957 *)
  let taper_ratio_htail := e Aircraft_HorizontalTail_TAPER_RATIO in  (* L958 *)
  let coef_vtail := e Aircraft_VerticalTail_MASS_COEFFICIENT in  (* L959 *)
  let wingspan := e Aircraft_Wing_SPAN in  (* L960 *)
  let min_dive_vel := e v_min_dive_vel in  (* L961 *)
  let htail_loc := e Aircraft_HorizontalTail_VERTICAL_TAIL_MOUNT_LOCATION in  (* L962 *)
  let vtail_area := e Aircraft_VerticalTail_AREA in  (* L963 *)
  let vtail_mom_arm := e Aircraft_VerticalTail_MOMENT_ARM in  (* L964 *)
  let tc_ratio_root_vtail := e Aircraft_VerticalTail_THICKNESS_TO_CHORD in  (* L965 *)
  let root_chord_vtail := e Aircraft_VerticalTail_ROOT_CHORD in  (* L966 *)
  let CK10 := e Aircraft_VerticalTail_MASS_SCALER in  (* L967 *)
  let tan_sweep_vtail_LE := (1 - taper_ratio_vtail) / (1 + taper_ratio_vtail) / AR_vtail / 2 + tan quarter_sweep_tail
      in  (* L969 *)
  let FH := gross_wt_initial * coef_htail * fus_len * span_htail * hook_fac * (1 + 2 * taper_ratio_htail) / (1000000 *
      (1 + taper_ratio_htail)) in  (* L972 *)
  let FV := gross_wt_initial * coef_vtail * (fus_len + wingspan) * span_vtail * (1 + 2 * taper_ratio_vtail) / (1000000
      * (1 + taper_ratio_vtail)) / 2 in  (* L981 *)
  let o_loc_MAC_vtail := span_vtail * tan_sweep_vtail_LE * (1 + 2 * taper_ratio_vtail) / 3 / (1 + taper_ratio_vtail)
      in  (* L990 *)
  let o_VerticalTail_MASS := CK10 * (380 / GRAV_ENGLISH_LBM * ((FV + htail_loc * FH / 2) * vtail_area * log10
      min_dive_vel / (100 * vtail_mom_arm * tc_ratio_root_vtail * root_chord_vtail)) ** (54 / 100)) in  (* L997 *)
  [(v_loc_MAC_vtail, o_loc_MAC_vtail);
   (Aircraft_VerticalTail_MASS, o_VerticalTail_MASS)].

(** VerticalTailMass.compute_partials, /repo/aviary/subsystems/mass/gasp_based/fixed.py L1009-1350 *)
Definition VerticalTailMass_partials (op : options) (e : env) : list (string * string * R) :=
  let taper_ratio_vtail := e Aircraft_VerticalTail_TAPER_RATIO in  (* L1010 *)
  let AR_vtail := e Aircraft_VerticalTail_ASPECT_RATIO in  (* L1011 *)
  let quarter_sweep_tail := e Aircraft_VerticalTail_SWEEP in  (* L1012 *)
  let span_vtail := e Aircraft_VerticalTail_SPAN in  (* L1013 *)
  let gross_wt_initial := e Aircraft_Design_GROSS_MASS * GRAV_ENGLISH_LBM in  (* L1014 *)
  let coef_htail := e Aircraft_HorizontalTail_MASS_COEFFICIENT in  (* L1015 *)
  let fus_len := e Aircraft_Fuselage_LENGTH in  (* L1016 *)
  let span_htail := e Aircraft_HorizontalTail_SPAN in  (* L1017 *)
  let hook_fac := e Aircraft_LandingGear_TAIL_HOOK_MASS_SCALER in  (* L1018 *)
  let taper_ratio_htail := e Aircraft_HorizontalTail_TAPER_RATIO in  (* L1019 *)
  let coef_vtail := e Aircraft_VerticalTail_MASS_COEFFICIENT in  (* L1020 *)
  let wingspan := e Aircraft_Wing_SPAN in  (* L1021 *)
  let min_dive_vel := e v_min_dive_vel in  (* L1022 *)
  let htail_loc := e Aircraft_HorizontalTail_VERTICAL_TAIL_MOUNT_LOCATION in  (* L1023 *)
  let vtail_area := e Aircraft_VerticalTail_AREA in  (* L1024 *)
  let vtail_mom_arm := e Aircraft_VerticalTail_MOMENT_ARM in  (* L1025 *)
  let tc_ratio_root_vtail := e Aircraft_VerticalTail_THICKNESS_TO_CHORD in  (* L1026 *)
  let root_chord_vtail := e Aircraft_VerticalTail_ROOT_CHORD in  (* L1027 *)
  let tan_sweep_vtail_LE := (1 - taper_ratio_vtail) / (1 + taper_ratio_vtail) / AR_vtail / 2 + tan quarter_sweep_tail
      in  (* L1029 *)
  let FH := gross_wt_initial * coef_htail * fus_len * span_htail * hook_fac * (1 + 2 * taper_ratio_htail) / (1000000 *
      (1 + taper_ratio_htail)) in  (* L1032 *)
  let FV := gross_wt_initial * coef_vtail * (fus_len + wingspan) * span_vtail * (1 + 2 * taper_ratio_vtail) / (1000000
      * (1 + taper_ratio_vtail)) / 2 in  (* L1041 *)
  let dTanSweepVtailLE_dTaperRatioVtail := (- ((1 + taper_ratio_vtail) * AR_vtail * 2) - (1 - taper_ratio_vtail) * 2 *
      AR_vtail) / ((1 + taper_ratio_vtail) * AR_vtail * 2) ^ 2 in  (* L1050 *)
  let dTanSweepVtailLE_dARVtail := - (1 - taper_ratio_vtail) / ((1 + taper_ratio_vtail) * AR_vtail * 2) ^ 2 * 2 * (1 +
      taper_ratio_vtail) in  (* L1053 *)
  let dTanSweepVtailLE_dQuarterSweepTail := (1 / cos quarter_sweep_tail) ^ 2 in  (* L1059 *)
  let dFH_dGrossWtInitial := coef_htail * fus_len * span_htail * hook_fac * (1 + 2 * taper_ratio_htail) / (1000000 *
      (1 + taper_ratio_htail)) in  (* L1061 *)
  let dFH_dCoefHtail := gross_wt_initial * fus_len * span_htail * hook_fac * (1 + 2 * taper_ratio_htail) / (1000000 *
      (1 + taper_ratio_htail)) in  (* L1069 *)
  let dFH_dFusLen := gross_wt_initial * coef_htail * span_htail * hook_fac * (1 + 2 * taper_ratio_htail) / (1000000 *
      (1 + taper_ratio_htail)) in  (* L1077 *)
  let dFH_dSpanHtail := gross_wt_initial * coef_htail * fus_len * hook_fac * (1 + 2 * taper_ratio_htail) / (1000000 *
      (1 + taper_ratio_htail)) in  (* L1085 *)
  let dFH_dHookFac := gross_wt_initial * coef_htail * fus_len * span_htail * (1 + 2 * taper_ratio_htail) / (1000000 *
      (1 + taper_ratio_htail)) in  (* L1093 *)
  let dFH_dTaperRatioHtail := gross_wt_initial * coef_htail * fus_len * span_htail * hook_fac * (1000000 * (1 +
      taper_ratio_htail) * 2 - (1 + 2 * taper_ratio_htail) * 1000000) / (1000000 * (1 + taper_ratio_htail)) ^ 2 in  (* L1101 *)
  let dFV_dGrossWtInitial := coef_vtail * (fus_len + wingspan) * span_vtail * (1 + 2 * taper_ratio_vtail) / (2 *
      1000000 * (1 + taper_ratio_vtail)) in  (* L1114 *)
  let dFV_dCoefVtail := gross_wt_initial * (fus_len + wingspan) * span_vtail * (1 + 2 * taper_ratio_vtail) / (2 *
      1000000 * (1 + taper_ratio_vtail)) in  (* L1121 *)
  let dFV_dFusLen := gross_wt_initial * coef_vtail * span_vtail * (1 + 2 * taper_ratio_vtail) / (2 * 1000000 * (1 +
      taper_ratio_vtail)) in  (* L1128 *)
  let dFV_dWingspan := gross_wt_initial * coef_vtail * span_vtail * (1 + 2 * taper_ratio_vtail) / (2 * 1000000 * (1 +
      taper_ratio_vtail)) in  (* L1135 *)
  let dFV_dSpanVtail := gross_wt_initial * coef_vtail * (fus_len + wingspan) * (1 + 2 * taper_ratio_vtail) / (2 *
      1000000 * (1 + taper_ratio_vtail)) in  (* L1142 *)
  let dFV_dTaperRatioVtail := gross_wt_initial * coef_vtail * (fus_len + wingspan) * span_vtail * (2 * 1000000 * (1 +
      taper_ratio_vtail) * 2 - (1 + 2 * taper_ratio_vtail) * 2 * 1000000) / (2 * 1000000 * (1 + taper_ratio_vtail)) ^
      2 in  (* L1149 *)
  let temp := (3 * (1 + taper_ratio_vtail) * 2 - (1 + 2 * taper_ratio_vtail) * 3) / (3 * (1 + taper_ratio_vtail)) ^ 2
      in  (* L1161 *)
  let d_loc_MAC_vtail__VerticalTail_SPAN := tan_sweep_vtail_LE * (1 + 2 * taper_ratio_vtail) / 3 / (1 +
      taper_ratio_vtail) in  (* L1165 *)
  let d_loc_MAC_vtail__VerticalTail_TAPER_RATIO := span_vtail * (dTanSweepVtailLE_dTaperRatioVtail * (1 + 2 *
      taper_ratio_vtail) / (3 * (1 + taper_ratio_vtail)) + tan_sweep_vtail_LE * temp) in  (* L1168 *)
  let d_loc_MAC_vtail__VerticalTail_ASPECT_RATIO := dTanSweepVtailLE_dARVtail * span_vtail * (1 + 2 *
      taper_ratio_vtail) / (3 * (1 + taper_ratio_vtail)) in  (* L1174 *)
  let d_loc_MAC_vtail__VerticalTail_SWEEP := dTanSweepVtailLE_dQuarterSweepTail * span_vtail * (1 + 2 *
      taper_ratio_vtail) / (3 * (1 + taper_ratio_vtail)) in  (* L1180 *)
  let temp := 380 * (vtail_area * log10 min_dive_vel / (100 * vtail_mom_arm * tc_ratio_root_vtail * root_chord_vtail))
      ** (54 / 100) in  (* L1187 *)
  let d_VerticalTail_MASS__Design_GROSS_MASS := temp * (54 / 100) * (FV + htail_loc * FH / 2) ** (- 46 / 100) *
      (dFV_dGrossWtInitial + htail_loc * dFH_dGrossWtInitial / 2) in  (* L1197 *)
  let d_VerticalTail_MASS__VerticalTail_MASS_COEFFICIENT := temp * (54 / 100) * (FV + htail_loc * FH / 2) ** (- 46 /
      100) * dFV_dCoefVtail / GRAV_ENGLISH_LBM in  (* L1203 *)
  let d_VerticalTail_MASS__Fuselage_LENGTH := temp / GRAV_ENGLISH_LBM * (54 / 100) * (FV + htail_loc * FH / 2) ** (-
      46 / 100) * (dFV_dFusLen + htail_loc * dFH_dFusLen / 2) in  (* L1206 *)
  let d_VerticalTail_MASS__Wing_SPAN := temp * (54 / 100) * (FV + htail_loc * FH / 2) ** (- 46 / 100) * dFV_dWingspan
      / GRAV_ENGLISH_LBM in  (* L1213 *)
  let d_VerticalTail_MASS__VerticalTail_SPAN := temp * (54 / 100) * (FV + htail_loc * FH / 2) ** (- 46 / 100) *
      dFV_dSpanVtail / GRAV_ENGLISH_LBM in  (* L1216 *)
  let d_VerticalTail_MASS__VerticalTail_TAPER_RATIO := temp * (54 / 100) * (FV + htail_loc * FH / 2) ** (- 46 / 100) *
      dFV_dTaperRatioVtail / GRAV_ENGLISH_LBM in  (* L1219 *)
  let d_VerticalTail_MASS__HorizontalTail_MASS_COEFFICIENT := temp / GRAV_ENGLISH_LBM * (54 / 100) * (FV + htail_loc *
      FH / 2) ** (- 46 / 100) * dFH_dCoefHtail * htail_loc / 2 in  (* L1226 *)
  let d_VerticalTail_MASS__HorizontalTail_SPAN := temp / GRAV_ENGLISH_LBM * (54 / 100) * (FV + htail_loc * FH / 2) **
      (- 46 / 100) * dFH_dSpanHtail * htail_loc / 2 in  (* L1235 *)
  let d_VerticalTail_MASS__LandingGear_TAIL_HOOK_MASS_SCALER := temp / GRAV_ENGLISH_LBM * (54 / 100) * (FV + htail_loc
      * FH / 2) ** (- 46 / 100) * dFH_dHookFac * htail_loc / 2 in  (* L1244 *)
  let d_VerticalTail_MASS__HorizontalTail_TAPER_RATIO := temp / GRAV_ENGLISH_LBM * (54 / 100) * (FV + htail_loc * FH /
      2) ** (- 46 / 100) * dFH_dTaperRatioHtail * htail_loc / 2 in  (* L1253 *)
  let d_VerticalTail_MASS__HorizontalTail_VERTICAL_TAIL_MOUNT_LOCATION := 380 / GRAV_ENGLISH_LBM * (vtail_area * log10
      min_dive_vel / (100 * vtail_mom_arm * tc_ratio_root_vtail * root_chord_vtail)) ** (54 / 100) * (54 / 100) * (FV
      + htail_loc * FH / 2) ** (- 46 / 100) * FH / 2 in  (* L1262 *)
  let d_VerticalTail_MASS__VerticalTail_AREA := 380 / GRAV_ENGLISH_LBM * ((FV + htail_loc * FH / 2) * log10
      min_dive_vel / (100 * vtail_mom_arm * tc_ratio_root_vtail * root_chord_vtail)) ** (54 / 100) * (54 / 100) *
      vtail_area ** (- 46 / 100) in  (* L1276 *)
  let d_VerticalTail_MASS__min_dive_vel := 380 / GRAV_ENGLISH_LBM * ((FV + htail_loc * FH / 2) * vtail_area / (100 *
      vtail_mom_arm * tc_ratio_root_vtail * root_chord_vtail)) ** (54 / 100) * (54 / 100) * log10 min_dive_vel ** (-
      46 / 100) / (min_dive_vel * ln 10) in  (* L1288 *)
  let d_VerticalTail_MASS__VerticalTail_MOMENT_ARM := 380 / GRAV_ENGLISH_LBM * ((FV + htail_loc * FH / 2) * vtail_area
      * log10 min_dive_vel / (100 * tc_ratio_root_vtail * root_chord_vtail)) ** (54 / 100) * (- 54 / 100) *
      vtail_mom_arm ** (- 154 / 100) in  (* L1301 *)
  let d_VerticalTail_MASS__VerticalTail_THICKNESS_TO_CHORD := 380 / GRAV_ENGLISH_LBM * ((FV + htail_loc * FH / 2) *
      vtail_area * log10 min_dive_vel / (100 * vtail_mom_arm * root_chord_vtail)) ** (54 / 100) * (- 54 / 100) *
      tc_ratio_root_vtail ** (- 154 / 100) in  (* L1314 *)
  let d_VerticalTail_MASS__VerticalTail_ROOT_CHORD := 380 / GRAV_ENGLISH_LBM * ((FV + htail_loc * FH / 2) * vtail_area
      * log10 min_dive_vel / (100 * vtail_mom_arm * tc_ratio_root_vtail)) ** (54 / 100) * (- 54 / 100) *
      root_chord_vtail ** (- 154 / 100) in  (* L1327 *)
  let d_VerticalTail_MASS__VerticalTail_MASS_SCALER := 380 / GRAV_ENGLISH_LBM * ((FV + htail_loc * FH / 2) *
      vtail_area * log10 min_dive_vel / (100 * vtail_mom_arm * tc_ratio_root_vtail * root_chord_vtail)) ** (54 / 100)
      in  (* L1340 *)
  [(v_loc_MAC_vtail, Aircraft_VerticalTail_SPAN, d_loc_MAC_vtail__VerticalTail_SPAN);
   (v_loc_MAC_vtail, Aircraft_VerticalTail_TAPER_RATIO, d_loc_MAC_vtail__VerticalTail_TAPER_RATIO);
   (v_loc_MAC_vtail, Aircraft_VerticalTail_ASPECT_RATIO, d_loc_MAC_vtail__VerticalTail_ASPECT_RATIO);
   (v_loc_MAC_vtail, Aircraft_VerticalTail_SWEEP, d_loc_MAC_vtail__VerticalTail_SWEEP);
   (Aircraft_VerticalTail_MASS, Aircraft_Design_GROSS_MASS, d_VerticalTail_MASS__Design_GROSS_MASS);
   (Aircraft_VerticalTail_MASS, Aircraft_VerticalTail_MASS_COEFFICIENT,
       d_VerticalTail_MASS__VerticalTail_MASS_COEFFICIENT);
   (Aircraft_VerticalTail_MASS, Aircraft_Fuselage_LENGTH, d_VerticalTail_MASS__Fuselage_LENGTH);
   (Aircraft_VerticalTail_MASS, Aircraft_Wing_SPAN, d_VerticalTail_MASS__Wing_SPAN);
   (Aircraft_VerticalTail_MASS, Aircraft_VerticalTail_SPAN, d_VerticalTail_MASS__VerticalTail_SPAN);
   (Aircraft_VerticalTail_MASS, Aircraft_VerticalTail_TAPER_RATIO, d_VerticalTail_MASS__VerticalTail_TAPER_RATIO);
   (Aircraft_VerticalTail_MASS, Aircraft_HorizontalTail_MASS_COEFFICIENT,
       d_VerticalTail_MASS__HorizontalTail_MASS_COEFFICIENT);
   (Aircraft_VerticalTail_MASS, Aircraft_HorizontalTail_SPAN, d_VerticalTail_MASS__HorizontalTail_SPAN);
   (Aircraft_VerticalTail_MASS, Aircraft_LandingGear_TAIL_HOOK_MASS_SCALER,
       d_VerticalTail_MASS__LandingGear_TAIL_HOOK_MASS_SCALER);
   (Aircraft_VerticalTail_MASS, Aircraft_HorizontalTail_TAPER_RATIO, d_VerticalTail_MASS__HorizontalTail_TAPER_RATIO);
   (Aircraft_VerticalTail_MASS, Aircraft_HorizontalTail_VERTICAL_TAIL_MOUNT_LOCATION,
       d_VerticalTail_MASS__HorizontalTail_VERTICAL_TAIL_MOUNT_LOCATION);
   (Aircraft_VerticalTail_MASS, Aircraft_VerticalTail_AREA, d_VerticalTail_MASS__VerticalTail_AREA);
   (Aircraft_VerticalTail_MASS, v_min_dive_vel, d_VerticalTail_MASS__min_dive_vel);
   (Aircraft_VerticalTail_MASS, Aircraft_VerticalTail_MOMENT_ARM, d_VerticalTail_MASS__VerticalTail_MOMENT_ARM);
   (Aircraft_VerticalTail_MASS, Aircraft_VerticalTail_THICKNESS_TO_CHORD,
       d_VerticalTail_MASS__VerticalTail_THICKNESS_TO_CHORD);
   (Aircraft_VerticalTail_MASS, Aircraft_VerticalTail_ROOT_CHORD, d_VerticalTail_MASS__VerticalTail_ROOT_CHORD);
   (Aircraft_VerticalTail_MASS, Aircraft_VerticalTail_MASS_SCALER, d_VerticalTail_MASS__VerticalTail_MASS_SCALER)].

(** Inputs, outputs and declared partials: /repo/aviary/subsystems/mass/gasp_based/fixed.py L880-946 *)
Definition VerticalTailMass (op : options) : comp := {|
  c_ins := [Aircraft_VerticalTail_TAPER_RATIO;
            Aircraft_VerticalTail_ASPECT_RATIO;
            Aircraft_VerticalTail_SWEEP;
            Aircraft_VerticalTail_SPAN;
            Aircraft_Design_GROSS_MASS;
            Aircraft_HorizontalTail_MASS_COEFFICIENT;
            Aircraft_Fuselage_LENGTH;
            Aircraft_HorizontalTail_SPAN;
            Aircraft_LandingGear_TAIL_HOOK_MASS_SCALER;
            Aircraft_HorizontalTail_TAPER_RATIO;
            Aircraft_VerticalTail_MASS_COEFFICIENT;
            Aircraft_Wing_SPAN;
            Aircraft_HorizontalTail_AREA;
            v_min_dive_vel;
            Aircraft_HorizontalTail_MOMENT_ARM;
            Aircraft_HorizontalTail_THICKNESS_TO_CHORD;
            Aircraft_HorizontalTail_ROOT_CHORD;
            Aircraft_HorizontalTail_VERTICAL_TAIL_MOUNT_LOCATION;
            Aircraft_VerticalTail_AREA;
            Aircraft_VerticalTail_MOMENT_ARM;
            Aircraft_VerticalTail_THICKNESS_TO_CHORD;
            Aircraft_VerticalTail_ROOT_CHORD;
            Aircraft_VerticalTail_MASS_SCALER;
            Aircraft_HorizontalTail_MASS_SCALER];
  c_outs := [v_loc_MAC_vtail;
             Aircraft_VerticalTail_MASS];
  c_decl := [(v_loc_MAC_vtail, Aircraft_VerticalTail_SPAN, 0);
             (v_loc_MAC_vtail, Aircraft_VerticalTail_TAPER_RATIO, 0);
             (v_loc_MAC_vtail, Aircraft_VerticalTail_ASPECT_RATIO, 0);
             (v_loc_MAC_vtail, Aircraft_VerticalTail_SWEEP, 0);
             (Aircraft_VerticalTail_MASS, Aircraft_Design_GROSS_MASS, 0);
             (Aircraft_VerticalTail_MASS, Aircraft_VerticalTail_MASS_COEFFICIENT, 0);
             (Aircraft_VerticalTail_MASS, Aircraft_Fuselage_LENGTH, 0);
             (Aircraft_VerticalTail_MASS, Aircraft_Wing_SPAN, 0);
             (Aircraft_VerticalTail_MASS, Aircraft_VerticalTail_SPAN, 0);
             (Aircraft_VerticalTail_MASS, Aircraft_VerticalTail_TAPER_RATIO, 0);
             (Aircraft_VerticalTail_MASS, Aircraft_HorizontalTail_MASS_COEFFICIENT, 0);
             (Aircraft_VerticalTail_MASS, Aircraft_HorizontalTail_SPAN, 0);
             (Aircraft_VerticalTail_MASS, Aircraft_LandingGear_TAIL_HOOK_MASS_SCALER, 0);
             (Aircraft_VerticalTail_MASS, Aircraft_HorizontalTail_TAPER_RATIO, 0);
             (Aircraft_VerticalTail_MASS, Aircraft_HorizontalTail_VERTICAL_TAIL_MOUNT_LOCATION, 0);
             (Aircraft_VerticalTail_MASS, Aircraft_VerticalTail_AREA, 0);
             (Aircraft_VerticalTail_MASS, v_min_dive_vel, 0);
             (Aircraft_VerticalTail_MASS, Aircraft_VerticalTail_MOMENT_ARM, 0);
             (Aircraft_VerticalTail_MASS, Aircraft_VerticalTail_THICKNESS_TO_CHORD, 0);
             (Aircraft_VerticalTail_MASS, Aircraft_VerticalTail_ROOT_CHORD, 0);
             (Aircraft_VerticalTail_MASS, Aircraft_VerticalTail_MASS_SCALER, 0)];
  c_run := VerticalTailMass_compute op; c_jac := VerticalTailMass_partials op |}.

(** TotalEngineMass.compute, /repo/aviary/subsystems/mass/gasp_based/engine.py L91-115 (one engine type or one node) *)
Definition TotalEngineMass_compute (op : options) (e : env) : list (string * R) :=
  let num_engines := on op Aircraft_Engine_NUM_ENGINES in  (* L92 *)
  let eng_spec_wt := e Aircraft_Engine_MASS_SPECIFIC * GRAV_ENGLISH_LBM in  (* L94 *)
  let Fn_SLS := e Aircraft_Engine_SCALED_SLS_THRUST in  (* L95 *)
  let dry_wt_eng := eng_spec_wt * Fn_SLS in  (* L97 *)
  let dry_wt_eng_all := dry_wt_eng * num_engines in  (* L98 *)
  let o_Propulsion_TOTAL_ENGINE_MASS := dry_wt_eng_all / GRAV_ENGLISH_LBM in  (* L99 *)
  let num_engines := on op Aircraft_Engine_NUM_ENGINES in  (* L103 *)
  let pylon_fac := e Aircraft_Engine_PYLON_FACTOR in  (* L105 *)
  let scaler := e Aircraft_Nacelle_MASS_SCALER in  (* L106 *)
  let spec_nacelle_wt := e Aircraft_Nacelle_MASS_SPECIFIC * GRAV_ENGLISH_LBM in  (* L107 *)
  let nacelle_area := e Aircraft_Nacelle_SURFACE_AREA in  (* L108 *)
  let nacelle_wt := scaler * spec_nacelle_wt * nacelle_area in  (* L110 *)
  let pylon_wt := pylon_fac * (dry_wt_eng + nacelle_wt) ** (736 / 1000) in  (* L111 *)
  let o_Nacelle_MASS := nacelle_wt / GRAV_ENGLISH_LBM in  (* L114 *)
  let o_pylon_mass := pylon_wt / GRAV_ENGLISH_LBM in  (* L115 *)
  [(Aircraft_Propulsion_TOTAL_ENGINE_MASS, o_Propulsion_TOTAL_ENGINE_MASS);
   (Aircraft_Nacelle_MASS, o_Nacelle_MASS);
   (v_pylon_mass, o_pylon_mass)].

(** TotalEngineMass.compute_partials, /repo/aviary/subsystems/mass/gasp_based/engine.py L117-184 *)
Definition TotalEngineMass_partials (op : options) (e : env) : list (string * string * R) :=
  let num_engines := on op Aircraft_Engine_NUM_ENGINES in  (* L118 *)
  let eng_spec_wt := e Aircraft_Engine_MASS_SPECIFIC * GRAV_ENGLISH_LBM in  (* L120 *)
  let Fn_SLS := e Aircraft_Engine_SCALED_SLS_THRUST in  (* L121 *)
  let spec_nacelle_wt := e Aircraft_Nacelle_MASS_SPECIFIC * GRAV_ENGLISH_LBM in  (* L122 *)
  let nacelle_area := e Aircraft_Nacelle_SURFACE_AREA in  (* L123 *)
  let pylon_fac := e Aircraft_Engine_PYLON_FACTOR in  (* L124 *)
  let scaler := e Aircraft_Nacelle_MASS_SCALER in  (* L125 *)
  let dDWEA_dESW := num_engines * Fn_SLS in  (* L127 *)
  let dDWEA_dFNSLS := num_engines * eng_spec_wt in  (* L128 *)
  let dNW_dNWS := scaler * nacelle_area in  (* L129 *)
  let dPW_dNWS := 736 / 1000 * pylon_fac * (eng_spec_wt * Fn_SLS + scaler * spec_nacelle_wt * nacelle_area) ** (- 264
      / 1000) * nacelle_area in  (* L130 *)
  let dNW_dNSA := scaler * spec_nacelle_wt in  (* L136 *)
  let dPW_dNSA := 736 / 1000 * pylon_fac * (eng_spec_wt * Fn_SLS + scaler * spec_nacelle_wt * nacelle_area) ** (- 264
      / 1000) * spec_nacelle_wt in  (* L137 *)
  let dPW_dPF := (eng_spec_wt * Fn_SLS + scaler * spec_nacelle_wt * nacelle_area) ** (736 / 1000) in  (* L143 *)
  let dPW_dEWS := 736 / 1000 * pylon_fac * (eng_spec_wt * Fn_SLS + scaler * spec_nacelle_wt * nacelle_area) ** (- 264
      / 1000) * Fn_SLS in  (* L144 *)
  let dPW_dSLST := pylon_fac * (736 / 1000) * (eng_spec_wt * Fn_SLS + scaler * spec_nacelle_wt * nacelle_area) ** (-
      264 / 1000) * eng_spec_wt in  (* L150 *)
  let d_Propulsion_TOTAL_ENGINE_MASS__Engine_MASS_SPECIFIC := dDWEA_dESW in  (* L157 *)
  let d_Propulsion_TOTAL_ENGINE_MASS__Engine_SCALED_SLS_THRUST := dDWEA_dFNSLS / GRAV_ENGLISH_LBM in  (* L158 *)
  let d_Nacelle_MASS__Nacelle_MASS_SPECIFIC := dNW_dNWS in  (* L162 *)
  let d_pylon_mass__Nacelle_MASS_SPECIFIC := dPW_dNWS in  (* L163 *)
  let d_Nacelle_MASS__Nacelle_SURFACE_AREA := dNW_dNSA / GRAV_ENGLISH_LBM in  (* L164 *)
  let d_pylon_mass__Nacelle_SURFACE_AREA := dPW_dNSA / GRAV_ENGLISH_LBM in  (* L165 *)
  let d_pylon_mass__Engine_PYLON_FACTOR := dPW_dPF / GRAV_ENGLISH_LBM in  (* L166 *)
  let d_pylon_mass__Engine_MASS_SPECIFIC := dPW_dEWS in  (* L167 *)
  let d_pylon_mass__Engine_SCALED_SLS_THRUST := dPW_dSLST / GRAV_ENGLISH_LBM in  (* L168 *)
  let dry_wt_eng := eng_spec_wt * Fn_SLS in  (* L170 *)
  let d_Nacelle_MASS__Nacelle_MASS_SCALER := spec_nacelle_wt * nacelle_area / GRAV_ENGLISH_LBM in  (* L171 *)
  let d_pylon_mass__Nacelle_MASS_SCALER := pylon_fac * (736 / 1000) * (dry_wt_eng + scaler * spec_nacelle_wt *
      nacelle_area) ** (- 264 / 1000) * spec_nacelle_wt * nacelle_area / GRAV_ENGLISH_LBM in  (* L174 *)
  let d_Nacelle_MASS__Nacelle_MASS_SCALER := spec_nacelle_wt * nacelle_area / GRAV_ENGLISH_LBM in  (* L182 *)
  [(Aircraft_Propulsion_TOTAL_ENGINE_MASS, Aircraft_Engine_MASS_SPECIFIC,
      d_Propulsion_TOTAL_ENGINE_MASS__Engine_MASS_SPECIFIC);
   (Aircraft_Propulsion_TOTAL_ENGINE_MASS, Aircraft_Engine_SCALED_SLS_THRUST,
       d_Propulsion_TOTAL_ENGINE_MASS__Engine_SCALED_SLS_THRUST);
   (Aircraft_Nacelle_MASS, Aircraft_Nacelle_MASS_SPECIFIC, d_Nacelle_MASS__Nacelle_MASS_SPECIFIC);
   (v_pylon_mass, Aircraft_Nacelle_MASS_SPECIFIC, d_pylon_mass__Nacelle_MASS_SPECIFIC);
   (Aircraft_Nacelle_MASS, Aircraft_Nacelle_SURFACE_AREA, d_Nacelle_MASS__Nacelle_SURFACE_AREA);
   (v_pylon_mass, Aircraft_Nacelle_SURFACE_AREA, d_pylon_mass__Nacelle_SURFACE_AREA);
   (v_pylon_mass, Aircraft_Engine_PYLON_FACTOR, d_pylon_mass__Engine_PYLON_FACTOR);
   (v_pylon_mass, Aircraft_Engine_MASS_SPECIFIC, d_pylon_mass__Engine_MASS_SPECIFIC);
   (v_pylon_mass, Aircraft_Engine_SCALED_SLS_THRUST, d_pylon_mass__Engine_SCALED_SLS_THRUST);
   (Aircraft_Nacelle_MASS, Aircraft_Nacelle_MASS_SCALER, d_Nacelle_MASS__Nacelle_MASS_SCALER);
   (v_pylon_mass, Aircraft_Nacelle_MASS_SCALER, d_pylon_mass__Nacelle_MASS_SCALER)].

(** Inputs, outputs and declared partials: /repo/aviary/subsystems/mass/gasp_based/engine.py L15-89 *)
Definition TotalEngineMass (op : options) : comp := {|
  c_ins := [Aircraft_Engine_MASS_SPECIFIC;
            Aircraft_Engine_SCALED_SLS_THRUST;
            Aircraft_Nacelle_MASS_SPECIFIC;
            Aircraft_Nacelle_SURFACE_AREA;
            Aircraft_Nacelle_MASS_SCALER;
            Aircraft_Engine_PYLON_FACTOR;
            Aircraft_Engine_Propeller_MASS];
  c_outs := [Aircraft_Propulsion_TOTAL_ENGINE_MASS;
             Aircraft_Nacelle_MASS;
             v_pylon_mass];
  c_decl := [(Aircraft_Propulsion_TOTAL_ENGINE_MASS, Aircraft_Engine_MASS_SPECIFIC, 0);
             (Aircraft_Propulsion_TOTAL_ENGINE_MASS, Aircraft_Engine_SCALED_SLS_THRUST, 0);
             (Aircraft_Nacelle_MASS, Aircraft_Nacelle_MASS_SPECIFIC, 0);
             (Aircraft_Nacelle_MASS, Aircraft_Nacelle_SURFACE_AREA, 0);
             (Aircraft_Nacelle_MASS, Aircraft_Nacelle_MASS_SCALER, 0);
             (v_pylon_mass, Aircraft_Nacelle_MASS_SPECIFIC, 0);
             (v_pylon_mass, Aircraft_Nacelle_SURFACE_AREA, 0);
             (v_pylon_mass, Aircraft_Engine_PYLON_FACTOR, 0);
             (v_pylon_mass, Aircraft_Engine_MASS_SPECIFIC, 0);
             (v_pylon_mass, Aircraft_Engine_SCALED_SLS_THRUST, 0);
             (v_pylon_mass, Aircraft_Nacelle_MASS_SCALER, 0)];
  c_run := TotalEngineMass_compute op; c_jac := TotalEngineMass_partials op |}.

(** EnginePodMass.compute, /repo/aviary/subsystems/mass/gasp_based/engine.py L232-242 (one engine type or one node) *)
Definition EnginePodMass_compute (op : options) (e : env) : list (string * R) :=
  let num_engines := on op Aircraft_Engine_NUM_ENGINES in  (* L233 *)
  let CK14 := e Aircraft_Engine_POD_MASS_SCALER in  (* L234 *)
  let nacelle_wt := e Aircraft_Nacelle_MASS * GRAV_ENGLISH_LBM in  (* L235 *)
  let pylon_wt := e v_pylon_mass * GRAV_ENGLISH_LBM in  (* L236 *)
  let pod_wt := nacelle_wt + pylon_wt in  (* L237 *)
  let o_Engine_POD_MASS := pod_wt / GRAV_ENGLISH_LBM in  (* L238 *)
  let pod_wt_sum := CK14 * pod_wt * num_engines in  (* L241 *)
  let o_Propulsion_TOTAL_ENGINE_POD_MASS := pod_wt_sum / GRAV_ENGLISH_LBM in  (* L242 *)
  [(Aircraft_Engine_POD_MASS, o_Engine_POD_MASS);
   (Aircraft_Propulsion_TOTAL_ENGINE_POD_MASS, o_Propulsion_TOTAL_ENGINE_POD_MASS)].

(** EnginePodMass.compute_partials, /repo/aviary/subsystems/mass/gasp_based/engine.py L244-262 *)
Definition EnginePodMass_partials (op : options) (e : env) : list (string * string * R) :=
  let num_engines := on op Aircraft_Engine_NUM_ENGINES in  (* L245 *)
  let CK14 := e Aircraft_Engine_POD_MASS_SCALER in  (* L248 *)
  let nacelle_wt := e Aircraft_Nacelle_MASS * GRAV_ENGLISH_LBM in  (* L249 *)
  let pylon_wt := e v_pylon_mass * GRAV_ENGLISH_LBM in  (* L250 *)
  let pod_wt := nacelle_wt + pylon_wt in  (* L251 *)
  let d_Engine_POD_MASS__Nacelle_MASS := 1 in  (* L253 *)
  let d_Engine_POD_MASS__pylon_mass := 1 in  (* L254 *)
  let d_Propulsion_TOTAL_ENGINE_POD_MASS__Nacelle_MASS := CK14 * num_engines in  (* L256 *)
  let d_Propulsion_TOTAL_ENGINE_POD_MASS__pylon_mass := CK14 * num_engines in  (* L258 *)
  let d_Propulsion_TOTAL_ENGINE_POD_MASS__Engine_POD_MASS_SCALER := pod_wt * num_engines / GRAV_ENGLISH_LBM in  (* L260 *)
  [(Aircraft_Engine_POD_MASS, Aircraft_Nacelle_MASS, d_Engine_POD_MASS__Nacelle_MASS);
   (Aircraft_Engine_POD_MASS, v_pylon_mass, d_Engine_POD_MASS__pylon_mass);
   (Aircraft_Propulsion_TOTAL_ENGINE_POD_MASS, Aircraft_Nacelle_MASS,
       d_Propulsion_TOTAL_ENGINE_POD_MASS__Nacelle_MASS);
   (Aircraft_Propulsion_TOTAL_ENGINE_POD_MASS, v_pylon_mass, d_Propulsion_TOTAL_ENGINE_POD_MASS__pylon_mass);
   (Aircraft_Propulsion_TOTAL_ENGINE_POD_MASS, Aircraft_Engine_POD_MASS_SCALER,
       d_Propulsion_TOTAL_ENGINE_POD_MASS__Engine_POD_MASS_SCALER)].

(** Inputs, outputs and declared partials: /repo/aviary/subsystems/mass/gasp_based/engine.py L193-230 *)
Definition EnginePodMass (op : options) : comp := {|
  c_ins := [Aircraft_Engine_POD_MASS_SCALER;
            Aircraft_Nacelle_MASS;
            v_pylon_mass];
  c_outs := [Aircraft_Propulsion_TOTAL_ENGINE_POD_MASS;
             Aircraft_Engine_POD_MASS];
  c_decl := [(Aircraft_Engine_POD_MASS, Aircraft_Nacelle_MASS, 0);
             (Aircraft_Engine_POD_MASS, v_pylon_mass, 0);
             (Aircraft_Propulsion_TOTAL_ENGINE_POD_MASS, Aircraft_Nacelle_MASS, 0);
             (Aircraft_Propulsion_TOTAL_ENGINE_POD_MASS, Aircraft_Engine_POD_MASS_SCALER, 0);
             (Aircraft_Propulsion_TOTAL_ENGINE_POD_MASS, v_pylon_mass, 0)];
  c_run := EnginePodMass_compute op; c_jac := EnginePodMass_partials op |}.

(** AdditionalEngineMass.compute, /repo/aviary/subsystems/mass/gasp_based/engine.py L307-317 (one engine type or one node) *)
Definition AdditionalEngineMass_compute (op : options) (e : env) : list (string * R) :=
  let CK7 := e Aircraft_Propulsion_MISC_MASS_SCALER in  (* L308 *)
  let c_instl := on op Aircraft_Engine_ADDITIONAL_MASS_FRACTION in  (* L309 *)
  let eng_spec_wt := e Aircraft_Engine_MASS_SPECIFIC * GRAV_ENGLISH_LBM in  (* L310 *)
  let Fn_SLS := e Aircraft_Engine_SCALED_SLS_THRUST in  (* L311 *)
  let dry_wt_eng := eng_spec_wt * Fn_SLS in  (* L313 *)
  let eng_instl_wt := c_instl * dry_wt_eng in  (* L315 *)
  let o_Engine_ADDITIONAL_MASS := CK7 * eng_instl_wt / GRAV_ENGLISH_LBM in  (* L317 *)
  [(Aircraft_Engine_ADDITIONAL_MASS, o_Engine_ADDITIONAL_MASS)].

(** AdditionalEngineMass.compute_partials, /repo/aviary/subsystems/mass/gasp_based/engine.py L319-332 *)
Definition AdditionalEngineMass_partials (op : options) (e : env) : list (string * string * R) :=
  let c_instl := on op Aircraft_Engine_ADDITIONAL_MASS_FRACTION in  (* L320 *)
  let eng_spec_wt := e Aircraft_Engine_MASS_SPECIFIC * GRAV_ENGLISH_LBM in  (* L322 *)
  let Fn_SLS := e Aircraft_Engine_SCALED_SLS_THRUST in  (* L323 *)
  let CK7 := e Aircraft_Propulsion_MISC_MASS_SCALER in  (* L324 *)
  let d_Engine_ADDITIONAL_MASS__Engine_MASS_SPECIFIC := CK7 * c_instl * Fn_SLS in  (* L326 *)
  let d_Engine_ADDITIONAL_MASS__Engine_SCALED_SLS_THRUST := CK7 * c_instl * eng_spec_wt / GRAV_ENGLISH_LBM in  (* L327 *)
  let d_Engine_ADDITIONAL_MASS__Propulsion_MISC_MASS_SCALER := c_instl * eng_spec_wt * Fn_SLS / GRAV_ENGLISH_LBM in  (* L330 *)
  [(Aircraft_Engine_ADDITIONAL_MASS, Aircraft_Engine_MASS_SPECIFIC, d_Engine_ADDITIONAL_MASS__Engine_MASS_SPECIFIC);
   (Aircraft_Engine_ADDITIONAL_MASS, Aircraft_Engine_SCALED_SLS_THRUST,
       d_Engine_ADDITIONAL_MASS__Engine_SCALED_SLS_THRUST);
   (Aircraft_Engine_ADDITIONAL_MASS, Aircraft_Propulsion_MISC_MASS_SCALER,
       d_Engine_ADDITIONAL_MASS__Propulsion_MISC_MASS_SCALER)].

(** Inputs, outputs and declared partials: /repo/aviary/subsystems/mass/gasp_based/engine.py L272-305 *)
Definition AdditionalEngineMass (op : options) : comp := {|
  c_ins := [Aircraft_Engine_MASS_SPECIFIC;
            Aircraft_Engine_SCALED_SLS_THRUST;
            Aircraft_Propulsion_MISC_MASS_SCALER];
  c_outs := [Aircraft_Engine_ADDITIONAL_MASS];
  c_decl := [(Aircraft_Engine_ADDITIONAL_MASS, Aircraft_Engine_MASS_SPECIFIC, 1);
             (Aircraft_Engine_ADDITIONAL_MASS, Aircraft_Engine_SCALED_SLS_THRUST, 1);
             (Aircraft_Engine_ADDITIONAL_MASS, Aircraft_Propulsion_MISC_MASS_SCALER, 1)];
  c_run := AdditionalEngineMass_compute op; c_jac := AdditionalEngineMass_partials op |}.
