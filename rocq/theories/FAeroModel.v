(** FLOPS based aerodynamics: /repo/aviary/subsystems/aerodynamics/flops_based, and the battery of
    /repo/aviary/subsystems/energy.

    Components with node arrays are modelled at one node.  Tables that OpenMDAO interpolates are arguments: functions
        of two
    numbers with functions for their partial derivatives, so the theorems hold for every table and every interpolation
        method
    that returns the derivatives of what it returns.  SkinFriction, an implicit component, is the component from its
        inputs and
    outputs to its residuals at one node and one surface; the attribute TAW, which guess_nonlinear sets, is an option.
    SkinFrictionDrag is the term of one surface of the sum that it returns; the option laminar says whether any
        surface has
    laminar flow.  CompressibilityDrag is a component below and one above a difference of 0.05 of the Mach number from
        the
    design Mach number.

    Generated by tools/py2coq.py from the source text; see the header of that file for the rules.  Decimal
    literals are exact and numbers are real numbers. *)
From Coq Require Import Reals.
From Verif Require Import Base Comp MathModel CompMore CompFun.
Open Scope list_scope.
Open Scope string_scope.
Local Open Scope R_scope.

(** ** Variable names, /repo/aviary/variable_info/variables.py *)
Definition Aircraft_Battery_ADDITIONAL_MASS := "aircraft:battery:additional_mass".
Definition Aircraft_Battery_ENERGY_CAPACITY := "aircraft:battery:energy_capacity".
Definition Aircraft_Battery_MASS := "aircraft:battery:mass".
Definition Aircraft_Battery_PACK_ENERGY_DENSITY := "aircraft:battery:pack_energy_density".
Definition Aircraft_Battery_PACK_MASS := "aircraft:battery:pack_mass".
Definition Aircraft_Design_BASE_AREA := "aircraft:design:base_area".
Definition Aircraft_Design_LIFT_COEFFICIENT := "aircraft:design:lift_coefficient".
Definition Aircraft_Design_MACH := "aircraft:design:mach".
Definition Aircraft_Design_PERCENT_EXCRESCENCE_DRAG := "aircraft:design:percent_excrescence_drag".
Definition Aircraft_Design_SUBSONIC_DRAG_COEFF_FACTOR := "aircraft:design:subsonic_drag_coeff_factor".
Definition Aircraft_Design_SUPERSONIC_DRAG_COEFF_FACTOR := "aircraft:design:supersonic_drag_coeff_factor".
Definition Aircraft_Design_TYPE := "aircraft:design:type".
Definition Aircraft_Engine_NUM_ENGINES := "aircraft:engine:num_engines".
Definition Aircraft_Fuselage_CROSS_SECTION := "aircraft:fuselage:cross_section".
Definition Aircraft_Fuselage_DIAMETER_TO_WING_SPAN := "aircraft:fuselage:diameter_to_wing_span".
Definition Aircraft_Fuselage_LENGTH_TO_DIAMETER := "aircraft:fuselage:length_to_diameter".
Definition Aircraft_Fuselage_NUM_FUSELAGES := "aircraft:fuselage:num_fuselages".
Definition Aircraft_HorizontalTail_NUM_TAILS := "aircraft:horizontal_tail:num_tails".
Definition Aircraft_VerticalTail_NUM_TAILS := "aircraft:vertical_tail:num_tails".
Definition Aircraft_Wing_AIRFOIL_TECHNOLOGY := "aircraft:wing:airfoil_technology".
Definition Aircraft_Wing_AREA := "aircraft:wing:area".
Definition Aircraft_Wing_ASPECT_RATIO := "aircraft:wing:aspect_ratio".
Definition Aircraft_Wing_HEIGHT := "aircraft:wing:height".
Definition Aircraft_Wing_MAX_CAMBER_AT_70_SEMISPAN := "aircraft:wing:max_camber_at_70_semispan".
Definition Aircraft_Wing_SPAN := "aircraft:wing:span".
Definition Aircraft_Wing_SPAN_EFFICIENCY_FACTOR := "aircraft:wing:span_efficiency_factor".
Definition Aircraft_Wing_SPAN_EFFICIENCY_REDUCTION := "aircraft:wing:span_efficiency_reduction".
Definition Aircraft_Wing_SWEEP := "aircraft:wing:sweep".
Definition Aircraft_Wing_TAPER_RATIO := "aircraft:wing:taper_ratio".
Definition Aircraft_Wing_THICKNESS_TO_CHORD := "aircraft:wing:thickness_to_chord".
Definition Dynamic_Atmosphere_DYNAMIC_PRESSURE := "dynamic_pressure".
Definition Dynamic_Atmosphere_MACH := "mach".
Definition Dynamic_Atmosphere_STATIC_PRESSURE := "static_pressure".
Definition Dynamic_Atmosphere_TEMPERATURE := "temperature".
Definition Dynamic_Mission_ALTITUDE := "altitude".
Definition Dynamic_Mission_FLIGHT_PATH_ANGLE := "flight_path_angle".
Definition Dynamic_Vehicle_ANGLE_OF_ATTACK := "angle_of_attack".
Definition Dynamic_Vehicle_DRAG := "drag".
Definition Dynamic_Vehicle_DRAG_COEFFICIENT := "drag_coefficient".
Definition Dynamic_Vehicle_LIFT := "lift".
Definition Dynamic_Vehicle_LIFT_COEFFICIENT := "lift_coefficient".
Definition Dynamic_Vehicle_MASS := "mass".
Definition Mission_GRAVITY := "mission:gravity".
Definition v_CD_prescaled := "CD_prescaled".
Definition v_DELCLB := "DELCLB".
Definition v_Re := "Re".
Definition v_TAW := "TAW".
Definition v_base_drag_coefficient := "base_drag_coefficient".
Definition v_base_lift_coefficient := "base_lift_coefficient".
Definition v_cf_iter := "cf_iter".
Definition v_characteristic_lengths := "characteristic_lengths".
Definition v_compress_drag_coeff := "compress_drag_coeff".
Definition v_fineness_ratios := "fineness_ratios".
Definition v_gamma := "gamma".
Definition v_ground_altitude := "ground_altitude".
Definition v_induced_drag_coeff := "induced_drag_coeff".
Definition v_laminar := "laminar".
Definition v_laminar_fractions_lower := "laminar_fractions_lower".
Definition v_laminar_fractions_upper := "laminar_fractions_upper".
Definition v_minimum_drag_coefficient := "minimum_drag_coefficient".
Definition v_num_nodes := "num_nodes".
Definition v_pressure_drag_coeff := "pressure_drag_coeff".
Definition v_skin_friction_coeff := "skin_friction_coeff".
Definition v_skin_friction_drag_coeff := "skin_friction_drag_coeff".
Definition v_wall_temp := "wall_temp".
Definition v_wetted_areas := "wetted_areas".


(** SimpleLift.compute, /repo/aviary/subsystems/aerodynamics/flops_based/lift.py L39-44 *)
Definition SimpleLift_compute (op : options) (e : env) : list (string * R) :=
  let S_ := e Aircraft_Wing_AREA in  (* L40 *)
  let q := e Dynamic_Atmosphere_DYNAMIC_PRESSURE in  (* L41 *)
  let CL := e Dynamic_Vehicle_LIFT_COEFFICIENT in  (* L42 *)
  let o_Vehicle_LIFT := q * S_ * CL in  (* L44 *)
  [(Dynamic_Vehicle_LIFT, o_Vehicle_LIFT)].

(** SimpleLift.compute_partials, /repo/aviary/subsystems/aerodynamics/flops_based/lift.py L46-53 *)
Definition SimpleLift_partials (op : options) (e : env) : list (string * string * R) :=
  let S_ := e Aircraft_Wing_AREA in  (* L47 *)
  let q := e Dynamic_Atmosphere_DYNAMIC_PRESSURE in  (* L48 *)
  let CL := e Dynamic_Vehicle_LIFT_COEFFICIENT in  (* L49 *)
  let d_Vehicle_LIFT__Wing_AREA := q * CL in  (* L51 *)
  let d_Vehicle_LIFT__Atmosphere_DYNAMIC_PRESSURE := S_ * CL in  (* L52 *)
  let d_Vehicle_LIFT__Vehicle_LIFT_COEFFICIENT := q * S_ in  (* L53 *)
  [(Dynamic_Vehicle_LIFT, Aircraft_Wing_AREA, d_Vehicle_LIFT__Wing_AREA);
   (Dynamic_Vehicle_LIFT, Dynamic_Atmosphere_DYNAMIC_PRESSURE, d_Vehicle_LIFT__Atmosphere_DYNAMIC_PRESSURE);
   (Dynamic_Vehicle_LIFT, Dynamic_Vehicle_LIFT_COEFFICIENT, d_Vehicle_LIFT__Vehicle_LIFT_COEFFICIENT)].

(** Inputs, outputs and declared partials: /repo/aviary/subsystems/aerodynamics/flops_based/lift.py L15-37 *)
Definition SimpleLift (op : options) : comp := {|
  c_ins := [Aircraft_Wing_AREA;
            Dynamic_Atmosphere_DYNAMIC_PRESSURE;
            Dynamic_Vehicle_LIFT_COEFFICIENT];
  c_outs := [Dynamic_Vehicle_LIFT];
  c_decl := [(Dynamic_Vehicle_LIFT, Aircraft_Wing_AREA, 0);
             (Dynamic_Vehicle_LIFT, Dynamic_Atmosphere_DYNAMIC_PRESSURE, 0);
             (Dynamic_Vehicle_LIFT, Dynamic_Vehicle_LIFT_COEFFICIENT, 0)];
  c_run := SimpleLift_compute op; c_jac := SimpleLift_partials op |}.

(** The inputs that are scalars, shared by all nodes. *)
Definition SimpleLift_shared : list string := [Aircraft_Wing_AREA].

(** LiftEqualsWeight.compute, /repo/aviary/subsystems/aerodynamics/flops_based/lift.py L104-113 *)
Definition LiftEqualsWeight_compute (op : options) (e : env) : list (string * R) :=
  let grav_metric := on op Mission_GRAVITY in  (* L105 *)
  let S_ := e Aircraft_Wing_AREA in  (* L107 *)
  let q := e Dynamic_Atmosphere_DYNAMIC_PRESSURE in  (* L108 *)
  let weight := grav_metric * e Dynamic_Vehicle_MASS in  (* L109 *)
  let o_Vehicle_LIFT_COEFFICIENT := weight / (q * S_) in  (* L111 *)
  let o_Vehicle_LIFT := weight in  (* L113 *)
  [(Dynamic_Vehicle_LIFT_COEFFICIENT, o_Vehicle_LIFT_COEFFICIENT);
   (Dynamic_Vehicle_LIFT, o_Vehicle_LIFT)].

(** LiftEqualsWeight.compute_partials, /repo/aviary/subsystems/aerodynamics/flops_based/lift.py L115-134 *)
Definition LiftEqualsWeight_partials (op : options) (e : env) : list (string * string * R) :=
  let grav_metric := on op Mission_GRAVITY in  (* L116 *)
  let S_ := e Aircraft_Wing_AREA in  (* L118 *)
  let q := e Dynamic_Atmosphere_DYNAMIC_PRESSURE in  (* L119 *)
  let weight := grav_metric * e Dynamic_Vehicle_MASS in  (* L120 *)
  let f := weight / q in  (* L122 *)
  let g := S_ in  (* L124 *)
  let d_Vehicle_LIFT_COEFFICIENT__Wing_AREA := - f / g ^ 2 in  (* L126 *)
  let d_Vehicle_LIFT_COEFFICIENT__Vehicle_MASS := grav_metric / (q * S_) in  (* L128 *)
  let f := weight / S_ in  (* L130 *)
  let g := q in  (* L132 *)
  let d_Vehicle_LIFT_COEFFICIENT__Atmosphere_DYNAMIC_PRESSURE := - f / g ^ 2 in  (* L134 *)
  [(Dynamic_Vehicle_LIFT_COEFFICIENT, Aircraft_Wing_AREA, d_Vehicle_LIFT_COEFFICIENT__Wing_AREA);
   (Dynamic_Vehicle_LIFT_COEFFICIENT, Dynamic_Vehicle_MASS, d_Vehicle_LIFT_COEFFICIENT__Vehicle_MASS);
   (Dynamic_Vehicle_LIFT_COEFFICIENT, Dynamic_Atmosphere_DYNAMIC_PRESSURE,
       d_Vehicle_LIFT_COEFFICIENT__Atmosphere_DYNAMIC_PRESSURE)].

(** Inputs, outputs and declared partials: /repo/aviary/subsystems/aerodynamics/flops_based/lift.py L67-102 *)
Definition LiftEqualsWeight (op : options) : comp := {|
  c_ins := [Aircraft_Wing_AREA;
            Dynamic_Vehicle_MASS;
            Dynamic_Atmosphere_DYNAMIC_PRESSURE];
  c_outs := [Dynamic_Vehicle_LIFT_COEFFICIENT;
             Dynamic_Vehicle_LIFT];
  c_decl := [(Dynamic_Vehicle_LIFT, Dynamic_Vehicle_MASS, (on op Mission_GRAVITY));
             (Dynamic_Vehicle_LIFT, Aircraft_Wing_AREA, 0);
             (Dynamic_Vehicle_LIFT, Dynamic_Atmosphere_DYNAMIC_PRESSURE, 0);
             (Dynamic_Vehicle_LIFT_COEFFICIENT, Aircraft_Wing_AREA, 0);
             (Dynamic_Vehicle_LIFT_COEFFICIENT, Dynamic_Vehicle_MASS, 0);
             (Dynamic_Vehicle_LIFT_COEFFICIENT, Dynamic_Atmosphere_DYNAMIC_PRESSURE, 0)];
  c_run := LiftEqualsWeight_compute op; c_jac := LiftEqualsWeight_partials op |}.

(** The inputs that are scalars, shared by all nodes. *)
Definition LiftEqualsWeight_shared : list string := [Aircraft_Wing_AREA].

(** ScaledCD.compute, /repo/aviary/subsystems/aerodynamics/flops_based/drag.py L60-70 *)
Definition ScaledCD_compute (op : options) (e : env) : list (string * R) :=
  let FCDSUB := e Aircraft_Design_SUBSONIC_DRAG_COEFF_FACTOR in  (* L61 *)
  let FCDSUP := e Aircraft_Design_SUPERSONIC_DRAG_COEFF_FACTOR in  (* L62 *)
  let M := e Dynamic_Atmosphere_MACH in  (* L63 *)
  let CD_prescaled := e v_CD_prescaled in  (* L65 *)
  let idx_sup := leb 1 M in  (* L67 *)
  let CD_scaled := CD_prescaled * FCDSUB in  (* L68 *)
  let CD_scaled := if idx_sup then CD_prescaled * FCDSUP else CD_scaled in  (* L69 *)
  let o_Vehicle_DRAG_COEFFICIENT := CD_scaled in  (* L70 *)
  [(Dynamic_Vehicle_DRAG_COEFFICIENT, o_Vehicle_DRAG_COEFFICIENT)].

(** ScaledCD.compute_partials, /repo/aviary/subsystems/aerodynamics/flops_based/drag.py L72-96 *)
Definition ScaledCD_partials (op : options) (e : env) : list (string * string * R) :=
  let FCDSUB := e Aircraft_Design_SUBSONIC_DRAG_COEFF_FACTOR in  (* L73 *)
  let FCDSUP := e Aircraft_Design_SUPERSONIC_DRAG_COEFF_FACTOR in  (* L74 *)
  let M := e Dynamic_Atmosphere_MACH in  (* L75 *)
  let CD_prescaled := e v_CD_prescaled in  (* L76 *)
  let idx_sup := leb 1 M in  (* L78 *)
  let CD_scaled := CD_prescaled * FCDSUB in  (* L79 *)
  let CD_scaled := if idx_sup then CD_prescaled * FCDSUP else CD_scaled in  (* L80 *)
  let idx_sub := ltb M 1 in  (* L82 *)
  let dCD := 1 in  (* L83 *)
  let dCD := if idx_sub then FCDSUB else dCD in  (* L84 *)
  let dCD := if idx_sup then FCDSUP else dCD in  (* L85 *)
  let d_Vehicle_DRAG_COEFFICIENT__CD_prescaled := dCD in  (* L86 *)
  let dF := 0 in  (* L88 *)
  let dF := if idx_sub then CD_prescaled else dF in  (* L89 *)
  let d_Vehicle_DRAG_COEFFICIENT__Design_SUBSONIC_DRAG_COEFF_FACTOR := dF in  (* L90 *)
  let dF := 0 in  (* L92 *)
  let dF := if idx_sup then CD_prescaled else dF in  (* L93 *)
  let d_Vehicle_DRAG_COEFFICIENT__Design_SUPERSONIC_DRAG_COEFF_FACTOR := dF in  (* L94 *)
  [(Dynamic_Vehicle_DRAG_COEFFICIENT, v_CD_prescaled, d_Vehicle_DRAG_COEFFICIENT__CD_prescaled);
   (Dynamic_Vehicle_DRAG_COEFFICIENT, Aircraft_Design_SUBSONIC_DRAG_COEFF_FACTOR,
       d_Vehicle_DRAG_COEFFICIENT__Design_SUBSONIC_DRAG_COEFF_FACTOR);
   (Dynamic_Vehicle_DRAG_COEFFICIENT, Aircraft_Design_SUPERSONIC_DRAG_COEFF_FACTOR,
       d_Vehicle_DRAG_COEFFICIENT__Design_SUPERSONIC_DRAG_COEFF_FACTOR)].

(** Inputs, outputs and declared partials: /repo/aviary/subsystems/aerodynamics/flops_based/drag.py L20-58 *)
Definition ScaledCD (op : options) : comp := {|
  c_ins := [Aircraft_Design_SUBSONIC_DRAG_COEFF_FACTOR;
            Aircraft_Design_SUPERSONIC_DRAG_COEFF_FACTOR;
            Dynamic_Atmosphere_MACH;
            v_CD_prescaled];
  c_outs := [Dynamic_Vehicle_DRAG_COEFFICIENT];
  c_decl := [(Dynamic_Vehicle_DRAG_COEFFICIENT, v_CD_prescaled, 0);
             (Dynamic_Vehicle_DRAG_COEFFICIENT, Aircraft_Design_SUBSONIC_DRAG_COEFF_FACTOR, 0);
             (Dynamic_Vehicle_DRAG_COEFFICIENT, Aircraft_Design_SUPERSONIC_DRAG_COEFF_FACTOR, 0);
             (Dynamic_Vehicle_DRAG_COEFFICIENT, Dynamic_Atmosphere_MACH, 0)];
  c_run := ScaledCD_compute op; c_jac := ScaledCD_partials op |}.

(** The inputs that are scalars, shared by all nodes. *)
Definition ScaledCD_shared : list string := [Aircraft_Design_SUBSONIC_DRAG_COEFF_FACTOR;
    Aircraft_Design_SUPERSONIC_DRAG_COEFF_FACTOR].

(** SimpleDrag.compute, /repo/aviary/subsystems/aerodynamics/flops_based/drag.py L127-132 *)
Definition SimpleDrag_compute (op : options) (e : env) : list (string * R) :=
  let S_ := e Aircraft_Wing_AREA in  (* L128 *)
  let q := e Dynamic_Atmosphere_DYNAMIC_PRESSURE in  (* L129 *)
  let CD := e Dynamic_Vehicle_DRAG_COEFFICIENT in  (* L130 *)
  let o_Vehicle_DRAG := q * S_ * CD in  (* L132 *)
  [(Dynamic_Vehicle_DRAG, o_Vehicle_DRAG)].

(** SimpleDrag.compute_partials, /repo/aviary/subsystems/aerodynamics/flops_based/drag.py L134-141 *)
Definition SimpleDrag_partials (op : options) (e : env) : list (string * string * R) :=
  let S_ := e Aircraft_Wing_AREA in  (* L135 *)
  let q := e Dynamic_Atmosphere_DYNAMIC_PRESSURE in  (* L136 *)
  let CD := e Dynamic_Vehicle_DRAG_COEFFICIENT in  (* L137 *)
  let d_Vehicle_DRAG__Wing_AREA := q * CD in  (* L139 *)
  let d_Vehicle_DRAG__Atmosphere_DYNAMIC_PRESSURE := S_ * CD in  (* L140 *)
  let d_Vehicle_DRAG__Vehicle_DRAG_COEFFICIENT := q * S_ in  (* L141 *)
  [(Dynamic_Vehicle_DRAG, Aircraft_Wing_AREA, d_Vehicle_DRAG__Wing_AREA);
   (Dynamic_Vehicle_DRAG, Dynamic_Atmosphere_DYNAMIC_PRESSURE, d_Vehicle_DRAG__Atmosphere_DYNAMIC_PRESSURE);
   (Dynamic_Vehicle_DRAG, Dynamic_Vehicle_DRAG_COEFFICIENT, d_Vehicle_DRAG__Vehicle_DRAG_COEFFICIENT)].

(** Inputs, outputs and declared partials: /repo/aviary/subsystems/aerodynamics/flops_based/drag.py L105-125 *)
Definition SimpleDrag (op : options) : comp := {|
  c_ins := [Aircraft_Wing_AREA;
            Dynamic_Atmosphere_DYNAMIC_PRESSURE;
            Dynamic_Vehicle_DRAG_COEFFICIENT];
  c_outs := [Dynamic_Vehicle_DRAG];
  c_decl := [(Dynamic_Vehicle_DRAG, Aircraft_Wing_AREA, 0);
             (Dynamic_Vehicle_DRAG, Dynamic_Atmosphere_DYNAMIC_PRESSURE, 0);
             (Dynamic_Vehicle_DRAG, Dynamic_Vehicle_DRAG_COEFFICIENT, 0)];
  c_run := SimpleDrag_compute op; c_jac := SimpleDrag_partials op |}.

(** The inputs that are scalars, shared by all nodes. *)
Definition SimpleDrag_shared : list string := [Aircraft_Wing_AREA].

(** GroundEffect.compute, /repo/aviary/subsystems/aerodynamics/flops_based/ground_effect.py L137-194 *)
Definition GroundEffect_compute (op : options) (e : env) : list (string * R) :=
  let ground_altitude := on op v_ground_altitude in  (* L140 *)
  let angle_of_attack := e Dynamic_Vehicle_ANGLE_OF_ATTACK in  (* L142 *)
  let altitude := e Dynamic_Mission_ALTITUDE in  (* L143 *)
  let flight_path_angle := e Dynamic_Mission_FLIGHT_PATH_ANGLE in  (* L144 *)
  let minimum_drag_coefficient := e v_minimum_drag_coefficient in  (* L145 *)
  let base_lift_coefficient := e v_base_lift_coefficient in  (* L146 *)
  let base_drag_coefficient := e v_base_drag_coefficient in  (* L147 *)
  let aspect_ratio := e Aircraft_Wing_ASPECT_RATIO in  (* L148 *)
  let height := e Aircraft_Wing_HEIGHT in  (* L149 *)
  let span := e Aircraft_Wing_SPAN in  (* L150 *)
  let ground_effect_state := (altitude - ground_altitude + height) / span in  (* L152 *)
  let height_factor := 1 in  (* L153 *)
  let idx := ltb 1 ground_effect_state in  (* L155 *)
  let height_factor := if idx then 10 * (11 / 10 - ground_effect_state) else height_factor in  (* L156 *)
  let aspect_ratio_term := (6 + aspect_ratio) ^ 2 / (36 + aspect_ratio) in  (* L158 *)
  let ground_effect_term0 := 32 * (ground_effect_state * aspect_ratio_term) ^ 2 + 1 in  (* L159 *)
  let lift_coeff_factor_denom := ground_effect_term0 - 5 / 10 + 4 * ground_effect_state * aspect_ratio_term * sqrt
      ground_effect_term0 in  (* L161 *)
  let lift_coeff_factor := 1 + height_factor / lift_coeff_factor_denom in  (* L167 *)
  let lift_coefficient := base_lift_coefficient * lift_coeff_factor in  (* L169 *)
  let combined_angle := angle_of_attack + flight_path_angle in  (* L171 *)
  let ground_effect_term1 := 1 + 32 * ground_effect_state ^ 2 in  (* L172 *)
  let drag_coeff_factor_denom := 4 * ground_effect_state * sqrt ground_effect_term1 + ground_effect_term1 in  (* L174 *)
  let drag_coeff_factor := 1 - height_factor / drag_coeff_factor_denom in  (* L178 *)
  let drag_coefficient := minimum_drag_coefficient + lift_coeff_factor * drag_coeff_factor * (base_drag_coefficient -
      minimum_drag_coefficient) + combined_angle * base_lift_coefficient * (lift_coeff_factor - 1) in  (* L180 *)
  let idx := ltb (11 / 10) ground_effect_state in  (* L189 *)
  let drag_coefficient := if idx then base_drag_coefficient else drag_coefficient in  (* L190 *)
  let lift_coefficient := if idx then base_lift_coefficient else lift_coefficient in  (* L191 *)
  let o_Vehicle_LIFT_COEFFICIENT := lift_coefficient in  (* L193 *)
  let o_Vehicle_DRAG_COEFFICIENT := drag_coefficient in  (* L194 *)
  [(Dynamic_Vehicle_LIFT_COEFFICIENT, o_Vehicle_LIFT_COEFFICIENT);
   (Dynamic_Vehicle_DRAG_COEFFICIENT, o_Vehicle_DRAG_COEFFICIENT)].

(** GroundEffect.compute_partials, /repo/aviary/subsystems/aerodynamics/flops_based/ground_effect.py L196-427 *)
Definition GroundEffect_partials (op : options) (e : env) : list (string * string * R) :=
  let ground_altitude := on op v_ground_altitude in  (* L199 *)
  let angle_of_attack := e Dynamic_Vehicle_ANGLE_OF_ATTACK in  (* L201 *)
  let altitude := e Dynamic_Mission_ALTITUDE in  (* L202 *)
  let flight_path_angle := e Dynamic_Mission_FLIGHT_PATH_ANGLE in  (* L203 *)
  let minimum_drag_coefficient := e v_minimum_drag_coefficient in  (* L204 *)
  let base_lift_coefficient := e v_base_lift_coefficient in  (* L205 *)
  let base_drag_coefficient := e v_base_drag_coefficient in  (* L206 *)
  let aspect_ratio := e Aircraft_Wing_ASPECT_RATIO in  (* L207 *)
  let height := e Aircraft_Wing_HEIGHT in  (* L208 *)
  let span := e Aircraft_Wing_SPAN in  (* L209 *)
  let ground_effect_state := (altitude - ground_altitude + height) / span in  (* L212 *)
  let d_ges_alt := 1 / span in  (* L214 *)
  let height_factor := 1 in  (* L216 *)
  let d_hf_alt := 0 in  (* L217 *)
  let idx := ltb 1 ground_effect_state in  (* L219 *)
  let height_factor := if idx then 10 * (11 / 10 - ground_effect_state) else height_factor in  (* L220 *)
  let d_hf_alt := if idx then - 10 / span else d_hf_alt in  (* L221 *)
  let aspect_ratio_term := (6 + aspect_ratio) ^ 2 / (36 + aspect_ratio) in  (* L223 *)
  let ground_effect_term0 := 32 * (ground_effect_state * aspect_ratio_term) ^ 2 + 1 in  (* L224 *)
  let d_get0_alt := 64 * ground_effect_state * aspect_ratio_term ^ 2 * d_ges_alt in  (* L226 *)
  let sqrt_get0 := sqrt ground_effect_term0 in  (* L228 *)
  let lift_coeff_factor_denom := ground_effect_term0 - 5 / 10 + 4 * ground_effect_state * aspect_ratio_term *
      sqrt_get0 in  (* L230 *)
  let d_lcfd_alt := d_get0_alt + 4 * aspect_ratio_term * (d_ges_alt * sqrt_get0 + ground_effect_state * (5 / 10 /
      sqrt_get0) * d_get0_alt) in  (* L234 *)
  let lift_coeff_factor := 1 + height_factor / lift_coeff_factor_denom in  (* L238 *)
  let d_lcf_alt := (d_hf_alt * lift_coeff_factor_denom - height_factor * d_lcfd_alt) / lift_coeff_factor_denom ^ 2 in  (* L240 *)
  let d_Vehicle_LIFT_COEFFICIENT__Mission_ALTITUDE := base_lift_coefficient * d_lcf_alt in  (* L244 *)
  let d_Vehicle_LIFT_COEFFICIENT__base_lift_coefficient := lift_coeff_factor in  (* L246 *)
  let f := (6 + aspect_ratio) ^ 2 in  (* L250 *)
  let d_f := 2 * (6 + aspect_ratio) in  (* L251 *)
  let g := 36 + aspect_ratio in  (* L252 *)
  let d_g := 1 in  (* L253 *)
  let d_art_ar := (d_f * g - f * d_g) / g ^ 2 in  (* L255 *)
  let d_get0_ar := 64 * (ground_effect_state ^ 2 * aspect_ratio_term) * d_art_ar in  (* L257 *)
  let d_lcfd_ar := d_get0_ar + 4 * ground_effect_state * (d_art_ar * sqrt_get0 + aspect_ratio_term * (5 / 10) /
      sqrt_get0 * d_get0_ar) in  (* L259 *)
  let f := height_factor in  (* L263 *)
  let d_f := 0 in  (* L264 *)
  let g := lift_coeff_factor_denom in  (* L265 *)
  let d_g := d_lcfd_ar in  (* L266 *)
  let d_lcf_ar := - f * d_g / g ^ 2 in  (* L268 *)
  let d_Vehicle_LIFT_COEFFICIENT__Wing_ASPECT_RATIO := base_lift_coefficient * d_lcf_ar in  (* L270 *)
  let d_Vehicle_LIFT_COEFFICIENT__Wing_HEIGHT := base_lift_coefficient * d_lcf_alt in  (* L273 *)
  let d_ges_b := - (altitude - ground_altitude + height) / span ^ 2 in  (* L276 *)
  let d_hf_b := 0 in  (* L278 *)
  let d_hf_b := if idx then - 10 * d_ges_b else d_hf_b in  (* L279 *)
  let d_get0_b := 64 * (ground_effect_state * aspect_ratio_term ^ 2) * d_ges_b in  (* L281 *)
  let d_lcfd_b := d_get0_b + 4 * aspect_ratio_term * (d_ges_b * sqrt_get0 + ground_effect_state * (5 / 10) / sqrt_get0
      * d_get0_b) in  (* L283 *)
  let f := height_factor in  (* L287 *)
  let d_f := d_hf_b in  (* L288 *)
  let g := lift_coeff_factor_denom in  (* L289 *)
  let d_g := d_lcfd_b in  (* L290 *)
  let d_lcf_b := (d_f * g - f * d_g) / g ^ 2 in  (* L292 *)
  let d_Vehicle_LIFT_COEFFICIENT__Wing_SPAN := base_lift_coefficient * d_lcf_b in  (* L294 *)
  let combined_angle := angle_of_attack + flight_path_angle in  (* L298 *)
  let d_ca_aoa := 1 in  (* L300 *)
  let ground_effect_term1 := 1 + 32 * ground_effect_state ^ 2 in  (* L302 *)
  let sqrt_get1 := sqrt ground_effect_term1 in  (* L304 *)
  let drag_coeff_factor_denom := 4 * ground_effect_state * sqrt_get1 + ground_effect_term1 in  (* L306 *)
  let drag_coeff_factor := 1 - height_factor / drag_coeff_factor_denom in  (* L308 *)
  let d_dc_aoa := base_lift_coefficient * (lift_coeff_factor - 1) * d_ca_aoa in  (* L310 *)
  let d_Vehicle_DRAG_COEFFICIENT__Vehicle_ANGLE_OF_ATTACK := d_dc_aoa in  (* L312 *)
  let d_ca_fpa := 1 in  (* L316 *)
  let d_dc_fpa := base_lift_coefficient * (lift_coeff_factor - 1) * d_ca_fpa in  (* L318 *)
  let d_Vehicle_DRAG_COEFFICIENT__Mission_FLIGHT_PATH_ANGLE := d_dc_fpa in  (* L320 *)
  let d_get1_alt := 64 * ground_effect_state * d_ges_alt in  (* L324 *)
  let f := ground_effect_state in  (* L326 *)
  let d_f := d_ges_alt in  (* L327 *)
  let g := sqrt_get1 in  (* L328 *)
  let d_g := 5 / 10 * d_get1_alt / sqrt_get1 in  (* L329 *)
  let d_dcfd_alt := 4 * (d_f * g + f * d_g) + d_get1_alt in  (* L331 *)
  let f := height_factor in  (* L333 *)
  let d_f := d_hf_alt in  (* L334 *)
  let g := drag_coeff_factor_denom in  (* L335 *)
  let d_g := d_dcfd_alt in  (* L336 *)
  let d_dcf_alt := - (d_f * g - f * d_g) / g ^ 2 in  (* L338 *)
  let f := lift_coeff_factor in  (* L340 *)
  let d_f := d_lcf_alt in  (* L341 *)
  let g := drag_coeff_factor in  (* L342 *)
  let d_g := d_dcf_alt in  (* L343 *)
  let d_dc_alt := (d_f * g + d_g * f) * (base_drag_coefficient - minimum_drag_coefficient) + combined_angle *
      base_lift_coefficient * d_lcf_alt in  (* L345 *)
  let d_Vehicle_DRAG_COEFFICIENT__Mission_ALTITUDE := d_dc_alt in  (* L349 *)
  let d_dc_mdc := 1 - lift_coeff_factor * drag_coeff_factor in  (* L353 *)
  let d_Vehicle_DRAG_COEFFICIENT__minimum_drag_coefficient := d_dc_mdc in  (* L355 *)
  let d_dc_blc := combined_angle * (lift_coeff_factor - 1) in  (* L359 *)
  let d_Vehicle_DRAG_COEFFICIENT__base_lift_coefficient := d_dc_blc in  (* L361 *)
  let d_dc_bdc := lift_coeff_factor * drag_coeff_factor in  (* L365 *)
  let d_Vehicle_DRAG_COEFFICIENT__base_drag_coefficient := d_dc_bdc in  (* L367 *)
  let d_dc_ar := (drag_coeff_factor * (base_drag_coefficient - minimum_drag_coefficient) + combined_angle *
      base_lift_coefficient) * d_lcf_ar in  (* L371 *)
  let d_Vehicle_DRAG_COEFFICIENT__Wing_ASPECT_RATIO := d_dc_ar in  (* L376 *)
  let d_Vehicle_DRAG_COEFFICIENT__Wing_HEIGHT := d_dc_alt in  (* L379 *)
  let d_get1_b := 64 * ground_effect_state * d_ges_b in  (* L382 *)
  let f := ground_effect_state in  (* L384 *)
  let d_f := d_ges_b in  (* L385 *)
  let g := sqrt_get1 in  (* L386 *)
  let d_g := 5 / 10 * d_get1_b / sqrt_get1 in  (* L387 *)
  let d_dcfd_b := 4 * (d_f * g + f * d_g) + d_get1_b in  (* L389 *)
  let f := height_factor in  (* L391 *)
  let d_f := d_hf_b in  (* L392 *)
  let g := drag_coeff_factor_denom in  (* L393 *)
  let d_g := d_dcfd_b in  (* L394 *)
  let d_dcf_b := - (d_f * g - f * d_g) / g ^ 2 in  (* L396 *)
  let f := lift_coeff_factor in  (* L398 *)
  let d_f := d_lcf_b in  (* L399 *)
  let g := drag_coeff_factor in  (* L400 *)
  let d_g := d_dcf_b in  (* L401 *)
  let d_dc_b := (d_f * g + f * d_g) * (base_drag_coefficient - minimum_drag_coefficient) + combined_angle *
      base_lift_coefficient * d_lcf_b in  (* L403 *)
  let d_Vehicle_DRAG_COEFFICIENT__Wing_SPAN := d_dc_b in  (* L407 *)
  let idx := ltb (11 / 10) ground_effect_state in  (* L411 *)
  let '(d_Vehicle_DRAG_COEFFICIENT__Mission_ALTITUDE, d_Vehicle_DRAG_COEFFICIENT__minimum_drag_coefficient,
      d_Vehicle_DRAG_COEFFICIENT__base_lift_coefficient, d_Vehicle_DRAG_COEFFICIENT__base_drag_coefficient,
      d_Vehicle_DRAG_COEFFICIENT__Wing_ASPECT_RATIO, d_Vehicle_DRAG_COEFFICIENT__Wing_HEIGHT,
      d_Vehicle_DRAG_COEFFICIENT__Wing_SPAN, d_Vehicle_DRAG_COEFFICIENT__Vehicle_ANGLE_OF_ATTACK,
      d_Vehicle_DRAG_COEFFICIENT__Mission_FLIGHT_PATH_ANGLE, d_Vehicle_LIFT_COEFFICIENT__Mission_ALTITUDE,
      d_Vehicle_LIFT_COEFFICIENT__base_lift_coefficient, d_Vehicle_LIFT_COEFFICIENT__Wing_ASPECT_RATIO,
      d_Vehicle_LIFT_COEFFICIENT__Wing_HEIGHT, d_Vehicle_LIFT_COEFFICIENT__Wing_SPAN) :=  (* L412 *)
    if idx then
      let d_Vehicle_DRAG_COEFFICIENT__Mission_ALTITUDE := if idx then 0 else
          d_Vehicle_DRAG_COEFFICIENT__Mission_ALTITUDE in  (* L413 *)
      let d_Vehicle_DRAG_COEFFICIENT__minimum_drag_coefficient := if idx then 0 else
          d_Vehicle_DRAG_COEFFICIENT__minimum_drag_coefficient in  (* L414 *)
      let d_Vehicle_DRAG_COEFFICIENT__base_lift_coefficient := if idx then 0 else
          d_Vehicle_DRAG_COEFFICIENT__base_lift_coefficient in  (* L415 *)
      let d_Vehicle_DRAG_COEFFICIENT__base_drag_coefficient := if idx then 1 else
          d_Vehicle_DRAG_COEFFICIENT__base_drag_coefficient in  (* L416 *)
      let d_Vehicle_DRAG_COEFFICIENT__Wing_ASPECT_RATIO := if idx then 0 else
          d_Vehicle_DRAG_COEFFICIENT__Wing_ASPECT_RATIO in  (* L417 *)
      let d_Vehicle_DRAG_COEFFICIENT__Wing_HEIGHT := if idx then 0 else d_Vehicle_DRAG_COEFFICIENT__Wing_HEIGHT in  (* L418 *)
      let d_Vehicle_DRAG_COEFFICIENT__Wing_SPAN := if idx then 0 else d_Vehicle_DRAG_COEFFICIENT__Wing_SPAN in  (* L419 *)
      let d_Vehicle_DRAG_COEFFICIENT__Vehicle_ANGLE_OF_ATTACK := if idx then 0 else
          d_Vehicle_DRAG_COEFFICIENT__Vehicle_ANGLE_OF_ATTACK in  (* L420 *)
      let d_Vehicle_DRAG_COEFFICIENT__Mission_FLIGHT_PATH_ANGLE := if idx then 0 else
          d_Vehicle_DRAG_COEFFICIENT__Mission_FLIGHT_PATH_ANGLE in  (* L421 *)
      let d_Vehicle_LIFT_COEFFICIENT__Mission_ALTITUDE := if idx then 0 else
          d_Vehicle_LIFT_COEFFICIENT__Mission_ALTITUDE in  (* L423 *)
      let d_Vehicle_LIFT_COEFFICIENT__base_lift_coefficient := if idx then 1 else
          d_Vehicle_LIFT_COEFFICIENT__base_lift_coefficient in  (* L424 *)
      let d_Vehicle_LIFT_COEFFICIENT__Wing_ASPECT_RATIO := if idx then 0 else
          d_Vehicle_LIFT_COEFFICIENT__Wing_ASPECT_RATIO in  (* L425 *)
      let d_Vehicle_LIFT_COEFFICIENT__Wing_HEIGHT := if idx then 0 else d_Vehicle_LIFT_COEFFICIENT__Wing_HEIGHT in  (* L426 *)
      let d_Vehicle_LIFT_COEFFICIENT__Wing_SPAN := if idx then 0 else d_Vehicle_LIFT_COEFFICIENT__Wing_SPAN in  (* L427 *)
      (d_Vehicle_DRAG_COEFFICIENT__Mission_ALTITUDE, d_Vehicle_DRAG_COEFFICIENT__minimum_drag_coefficient,
          d_Vehicle_DRAG_COEFFICIENT__base_lift_coefficient, d_Vehicle_DRAG_COEFFICIENT__base_drag_coefficient,
          d_Vehicle_DRAG_COEFFICIENT__Wing_ASPECT_RATIO, d_Vehicle_DRAG_COEFFICIENT__Wing_HEIGHT,
          d_Vehicle_DRAG_COEFFICIENT__Wing_SPAN, d_Vehicle_DRAG_COEFFICIENT__Vehicle_ANGLE_OF_ATTACK,
          d_Vehicle_DRAG_COEFFICIENT__Mission_FLIGHT_PATH_ANGLE, d_Vehicle_LIFT_COEFFICIENT__Mission_ALTITUDE,
          d_Vehicle_LIFT_COEFFICIENT__base_lift_coefficient, d_Vehicle_LIFT_COEFFICIENT__Wing_ASPECT_RATIO,
          d_Vehicle_LIFT_COEFFICIENT__Wing_HEIGHT, d_Vehicle_LIFT_COEFFICIENT__Wing_SPAN)
    else
      (d_Vehicle_DRAG_COEFFICIENT__Mission_ALTITUDE, d_Vehicle_DRAG_COEFFICIENT__minimum_drag_coefficient,
          d_Vehicle_DRAG_COEFFICIENT__base_lift_coefficient, d_Vehicle_DRAG_COEFFICIENT__base_drag_coefficient,
          d_Vehicle_DRAG_COEFFICIENT__Wing_ASPECT_RATIO, d_Vehicle_DRAG_COEFFICIENT__Wing_HEIGHT,
          d_Vehicle_DRAG_COEFFICIENT__Wing_SPAN, d_Vehicle_DRAG_COEFFICIENT__Vehicle_ANGLE_OF_ATTACK,
          d_Vehicle_DRAG_COEFFICIENT__Mission_FLIGHT_PATH_ANGLE, d_Vehicle_LIFT_COEFFICIENT__Mission_ALTITUDE,
          d_Vehicle_LIFT_COEFFICIENT__base_lift_coefficient, d_Vehicle_LIFT_COEFFICIENT__Wing_ASPECT_RATIO,
          d_Vehicle_LIFT_COEFFICIENT__Wing_HEIGHT, d_Vehicle_LIFT_COEFFICIENT__Wing_SPAN) in
  [(Dynamic_Vehicle_LIFT_COEFFICIENT, Dynamic_Mission_ALTITUDE, d_Vehicle_LIFT_COEFFICIENT__Mission_ALTITUDE);
   (Dynamic_Vehicle_LIFT_COEFFICIENT, v_base_lift_coefficient, d_Vehicle_LIFT_COEFFICIENT__base_lift_coefficient);
   (Dynamic_Vehicle_LIFT_COEFFICIENT, Aircraft_Wing_ASPECT_RATIO, d_Vehicle_LIFT_COEFFICIENT__Wing_ASPECT_RATIO);
   (Dynamic_Vehicle_LIFT_COEFFICIENT, Aircraft_Wing_HEIGHT, d_Vehicle_LIFT_COEFFICIENT__Wing_HEIGHT);
   (Dynamic_Vehicle_LIFT_COEFFICIENT, Aircraft_Wing_SPAN, d_Vehicle_LIFT_COEFFICIENT__Wing_SPAN);
   (Dynamic_Vehicle_DRAG_COEFFICIENT, Dynamic_Vehicle_ANGLE_OF_ATTACK,
       d_Vehicle_DRAG_COEFFICIENT__Vehicle_ANGLE_OF_ATTACK);
   (Dynamic_Vehicle_DRAG_COEFFICIENT, Dynamic_Mission_FLIGHT_PATH_ANGLE,
       d_Vehicle_DRAG_COEFFICIENT__Mission_FLIGHT_PATH_ANGLE);
   (Dynamic_Vehicle_DRAG_COEFFICIENT, Dynamic_Mission_ALTITUDE, d_Vehicle_DRAG_COEFFICIENT__Mission_ALTITUDE);
   (Dynamic_Vehicle_DRAG_COEFFICIENT, v_minimum_drag_coefficient,
       d_Vehicle_DRAG_COEFFICIENT__minimum_drag_coefficient);
   (Dynamic_Vehicle_DRAG_COEFFICIENT, v_base_lift_coefficient, d_Vehicle_DRAG_COEFFICIENT__base_lift_coefficient);
   (Dynamic_Vehicle_DRAG_COEFFICIENT, v_base_drag_coefficient, d_Vehicle_DRAG_COEFFICIENT__base_drag_coefficient);
   (Dynamic_Vehicle_DRAG_COEFFICIENT, Aircraft_Wing_ASPECT_RATIO, d_Vehicle_DRAG_COEFFICIENT__Wing_ASPECT_RATIO);
   (Dynamic_Vehicle_DRAG_COEFFICIENT, Aircraft_Wing_HEIGHT, d_Vehicle_DRAG_COEFFICIENT__Wing_HEIGHT);
   (Dynamic_Vehicle_DRAG_COEFFICIENT, Aircraft_Wing_SPAN, d_Vehicle_DRAG_COEFFICIENT__Wing_SPAN)].

(** Inputs, outputs and declared partials: /repo/aviary/subsystems/aerodynamics/flops_based/ground_effect.py L41-135 *)
Definition GroundEffect (op : options) : comp := {|
  c_ins := [Dynamic_Vehicle_ANGLE_OF_ATTACK;
            Dynamic_Mission_ALTITUDE;
            Dynamic_Mission_FLIGHT_PATH_ANGLE;
            v_minimum_drag_coefficient;
            v_base_lift_coefficient;
            v_base_drag_coefficient;
            Aircraft_Wing_ASPECT_RATIO;
            Aircraft_Wing_HEIGHT;
            Aircraft_Wing_SPAN];
  c_outs := [Dynamic_Vehicle_LIFT_COEFFICIENT;
             Dynamic_Vehicle_DRAG_COEFFICIENT];
  c_decl := [(Dynamic_Vehicle_LIFT_COEFFICIENT, Aircraft_Wing_ASPECT_RATIO, 0);
             (Dynamic_Vehicle_LIFT_COEFFICIENT, Aircraft_Wing_HEIGHT, 0);
             (Dynamic_Vehicle_LIFT_COEFFICIENT, Aircraft_Wing_SPAN, 0);
             (Dynamic_Vehicle_LIFT_COEFFICIENT, Dynamic_Mission_ALTITUDE, 0);
             (Dynamic_Vehicle_LIFT_COEFFICIENT, v_base_lift_coefficient, 0);
             (Dynamic_Vehicle_LIFT_COEFFICIENT, Dynamic_Vehicle_ANGLE_OF_ATTACK, 0);
             (Dynamic_Vehicle_LIFT_COEFFICIENT, Dynamic_Mission_FLIGHT_PATH_ANGLE, 0);
             (Dynamic_Vehicle_LIFT_COEFFICIENT, v_minimum_drag_coefficient, 0);
             (Dynamic_Vehicle_LIFT_COEFFICIENT, v_base_drag_coefficient, 0);
             (Dynamic_Vehicle_DRAG_COEFFICIENT, Aircraft_Wing_ASPECT_RATIO, 0);
             (Dynamic_Vehicle_DRAG_COEFFICIENT, Aircraft_Wing_HEIGHT, 0);
             (Dynamic_Vehicle_DRAG_COEFFICIENT, Aircraft_Wing_SPAN, 0);
             (Dynamic_Vehicle_DRAG_COEFFICIENT, Dynamic_Vehicle_ANGLE_OF_ATTACK, 0);
             (Dynamic_Vehicle_DRAG_COEFFICIENT, Dynamic_Mission_ALTITUDE, 0);
             (Dynamic_Vehicle_DRAG_COEFFICIENT, Dynamic_Mission_FLIGHT_PATH_ANGLE, 0);
             (Dynamic_Vehicle_DRAG_COEFFICIENT, v_base_drag_coefficient, 0);
             (Dynamic_Vehicle_DRAG_COEFFICIENT, v_base_lift_coefficient, 0);
             (Dynamic_Vehicle_DRAG_COEFFICIENT, v_minimum_drag_coefficient, 0)];
  c_run := GroundEffect_compute op; c_jac := GroundEffect_partials op |}.

(** The inputs that are scalars, shared by all nodes. *)
Definition GroundEffect_shared : list string := [v_minimum_drag_coefficient; Aircraft_Wing_ASPECT_RATIO;
    Aircraft_Wing_HEIGHT; Aircraft_Wing_SPAN].

(** InducedDrag.compute, /repo/aviary/subsystems/aerodynamics/flops_based/induced_drag.py L65-108 *)
Definition InducedDrag_compute (op : options) (e : env) : list (string * R) :=
  let gamma := on op v_gamma in  (* L67 *)
  let mach := e Dynamic_Atmosphere_MACH in  (* L68 *)
  let lift := e Dynamic_Vehicle_LIFT in  (* L68 *)
  let P := e Dynamic_Atmosphere_STATIC_PRESSURE in  (* L68 *)
  let Sref := e Aircraft_Wing_AREA in  (* L68 *)
  let AR := e Aircraft_Wing_ASPECT_RATIO in  (* L68 *)
  let span_efficiency_factor := e Aircraft_Wing_SPAN_EFFICIENCY_FACTOR in  (* L68 *)
  let SW25 := e Aircraft_Wing_SWEEP in  (* L68 *)
  let TR := e Aircraft_Wing_TAPER_RATIO in  (* L68 *)
  let CL := 2 * lift / (Sref * gamma * P * mach ^ 2) in  (* L70 *)
  let redux := ob op Aircraft_Wing_SPAN_EFFICIENCY_REDUCTION in  (* L72 *)
  let span_efficiency_0 := 1 in  (* L83 *)
  let span_efficiency :=  (* L85 *)
    if leb span_efficiency_factor (3 / 10) then
      let span_efficiency := span_efficiency_0 + span_efficiency_factor in  (* L86 *)
      span_efficiency
    else
      let span_efficiency := span_efficiency_0 * span_efficiency_factor in  (* L88 *)
      span_efficiency in
  let CDi := CL ^ 2 / (PI * AR * span_efficiency) in  (* L90 *)
  let o_induced_drag_coeff := CDi in  (* L108 *)
  [(v_induced_drag_coeff, o_induced_drag_coeff)].

(** InducedDrag.compute_partials, /repo/aviary/subsystems/aerodynamics/flops_based/induced_drag.py L110-217 *)
Definition InducedDrag_partials (op : options) (e : env) : list (string * string * R) :=
  let gamma := on op v_gamma in  (* L112 *)
  let mach := e Dynamic_Atmosphere_MACH in  (* L113 *)
  let lift := e Dynamic_Vehicle_LIFT in  (* L113 *)
  let P := e Dynamic_Atmosphere_STATIC_PRESSURE in  (* L113 *)
  let Sref := e Aircraft_Wing_AREA in  (* L113 *)
  let AR := e Aircraft_Wing_ASPECT_RATIO in  (* L113 *)
  let span_efficiency_factor := e Aircraft_Wing_SPAN_EFFICIENCY_FACTOR in  (* L113 *)
  let SW25 := e Aircraft_Wing_SWEEP in  (* L113 *)
  let TR := e Aircraft_Wing_TAPER_RATIO in  (* L113 *)
  let redux := ob op Aircraft_Wing_SPAN_EFFICIENCY_REDUCTION in  (* L114 *)
  let span_efficiency_0 := 1 in  (* L123 *)
  let span_efficiency :=  (* L125 *)
    if leb span_efficiency_factor (3 / 10) then
      let span_efficiency := span_efficiency_0 + span_efficiency_factor in  (* L126 *)
      span_efficiency
    else
      let span_efficiency := span_efficiency_0 * span_efficiency_factor in  (* L128 *)
      span_efficiency in
  let CL := 2 * lift / (Sref * gamma * P * mach ^ 2) in  (* L130 *)
  let dCL_dL := 2 / (Sref * gamma * P * mach ^ 2) in  (* L131 *)
  let dCL_dSref := - 2 * lift / (Sref ^ 2 * gamma * P * mach ^ 2) in  (* L132 *)
  let dCL_dP := - 2 * lift / (Sref * gamma * P ^ 2 * mach ^ 2) in  (* L133 *)
  let dCL_dmach := - 4 * lift / (Sref * gamma * P * mach ^ 3) in  (* L134 *)
  let dCDi_dCL := 2 * CL / (PI * AR * span_efficiency) in  (* L136 *)
  let dCDi_dAR := - CL ^ 2 / (PI * AR ^ 2 * span_efficiency) in  (* L137 *)
  let dCDi_dspan := - CL ^ 2 / (PI * AR * span_efficiency ^ 2) in  (* L138 *)
  let d_induced_drag_coeff__Atmosphere_MACH := dCDi_dCL * dCL_dmach in  (* L140 *)
  let d_induced_drag_coeff__Vehicle_LIFT := dCDi_dCL * dCL_dL in  (* L141 *)
  let d_induced_drag_coeff__Atmosphere_STATIC_PRESSURE := dCDi_dCL * dCL_dP in  (* L142 *)
  let d_induced_drag_coeff__Wing_ASPECT_RATIO := dCDi_dAR in  (* L143 *)
  let d_induced_drag_coeff__Wing_SPAN_EFFICIENCY_FACTOR := 0 in  (* L144 *)
  let d_induced_drag_coeff__Wing_SWEEP := 0 in  (* L145 *)
  let d_induced_drag_coeff__Wing_TAPER_RATIO := 0 in  (* L146 *)
  let d_induced_drag_coeff__Wing_AREA := dCDi_dCL * dCL_dSref in  (* L147 *)
  let '(d_induced_drag_coeff__Wing_SPAN_EFFICIENCY_FACTOR, d_induced_drag_coeff__Wing_ASPECT_RATIO,
      d_induced_drag_coeff__Wing_TAPER_RATIO) :=  (* L149 *)
    if leb span_efficiency_factor (3 / 10) then
      let d_induced_drag_coeff__Wing_SPAN_EFFICIENCY_FACTOR := dCDi_dspan in  (* L150 *)
      (d_induced_drag_coeff__Wing_SPAN_EFFICIENCY_FACTOR, d_induced_drag_coeff__Wing_ASPECT_RATIO,
          d_induced_drag_coeff__Wing_TAPER_RATIO)
    else
      let d_induced_drag_coeff__Wing_SPAN_EFFICIENCY_FACTOR := dCDi_dspan * span_efficiency_0 in  (* L155 *)
      (d_induced_drag_coeff__Wing_SPAN_EFFICIENCY_FACTOR, d_induced_drag_coeff__Wing_ASPECT_RATIO,
          d_induced_drag_coeff__Wing_TAPER_RATIO) in
  [(v_induced_drag_coeff, Dynamic_Atmosphere_MACH, d_induced_drag_coeff__Atmosphere_MACH);
   (v_induced_drag_coeff, Dynamic_Vehicle_LIFT, d_induced_drag_coeff__Vehicle_LIFT);
   (v_induced_drag_coeff, Dynamic_Atmosphere_STATIC_PRESSURE, d_induced_drag_coeff__Atmosphere_STATIC_PRESSURE);
   (v_induced_drag_coeff, Aircraft_Wing_ASPECT_RATIO, d_induced_drag_coeff__Wing_ASPECT_RATIO);
   (v_induced_drag_coeff, Aircraft_Wing_SPAN_EFFICIENCY_FACTOR, d_induced_drag_coeff__Wing_SPAN_EFFICIENCY_FACTOR);
   (v_induced_drag_coeff, Aircraft_Wing_SWEEP, d_induced_drag_coeff__Wing_SWEEP);
   (v_induced_drag_coeff, Aircraft_Wing_TAPER_RATIO, d_induced_drag_coeff__Wing_TAPER_RATIO);
   (v_induced_drag_coeff, Aircraft_Wing_AREA, d_induced_drag_coeff__Wing_AREA)].

(** Inputs, outputs and declared partials: /repo/aviary/subsystems/aerodynamics/flops_based/induced_drag.py L20-63 *)
Definition InducedDrag (op : options) : comp := {|
  c_ins := [Dynamic_Atmosphere_MACH;
            Dynamic_Vehicle_LIFT;
            Dynamic_Atmosphere_STATIC_PRESSURE;
            Aircraft_Wing_AREA;
            Aircraft_Wing_ASPECT_RATIO;
            Aircraft_Wing_SPAN_EFFICIENCY_FACTOR;
            Aircraft_Wing_SWEEP;
            Aircraft_Wing_TAPER_RATIO];
  c_outs := [v_induced_drag_coeff];
  c_decl := [(v_induced_drag_coeff, Dynamic_Atmosphere_MACH, 0);
             (v_induced_drag_coeff, Dynamic_Vehicle_LIFT, 0);
             (v_induced_drag_coeff, Dynamic_Atmosphere_STATIC_PRESSURE, 0);
             (v_induced_drag_coeff, Aircraft_Wing_AREA, 0);
             (v_induced_drag_coeff, Aircraft_Wing_ASPECT_RATIO, 0);
             (v_induced_drag_coeff, Aircraft_Wing_SPAN_EFFICIENCY_FACTOR, 0);
             (v_induced_drag_coeff, Aircraft_Wing_SWEEP, 0);
             (v_induced_drag_coeff, Aircraft_Wing_TAPER_RATIO, 0)];
  c_run := InducedDrag_compute op; c_jac := InducedDrag_partials op |}.

(** The inputs that are scalars, shared by all nodes. *)
Definition InducedDrag_shared : list string := [Aircraft_Wing_AREA; Aircraft_Wing_ASPECT_RATIO;
    Aircraft_Wing_SPAN_EFFICIENCY_FACTOR; Aircraft_Wing_SWEEP; Aircraft_Wing_TAPER_RATIO].

(** InducedDrag.compute, /repo/aviary/subsystems/aerodynamics/flops_based/induced_drag.py L65-108 *)
Definition InducedDragForward_compute (op : options) (e : env) : list (string * R) :=
  let gamma := on op v_gamma in  (* L67 *)
  let mach := e Dynamic_Atmosphere_MACH in  (* L68 *)
  let lift := e Dynamic_Vehicle_LIFT in  (* L68 *)
  let P := e Dynamic_Atmosphere_STATIC_PRESSURE in  (* L68 *)
  let Sref := e Aircraft_Wing_AREA in  (* L68 *)
  let AR := e Aircraft_Wing_ASPECT_RATIO in  (* L68 *)
  let span_efficiency_factor := e Aircraft_Wing_SPAN_EFFICIENCY_FACTOR in  (* L68 *)
  let SW25 := e Aircraft_Wing_SWEEP in  (* L68 *)
  let TR := e Aircraft_Wing_TAPER_RATIO in  (* L68 *)
  let CL := 2 * lift / (Sref * gamma * P * mach ^ 2) in  (* L70 *)
  let redux := ob op Aircraft_Wing_SPAN_EFFICIENCY_REDUCTION in  (* L72 *)
  let span_efficiency_0 := 1 in  (* L83 *)
  let span_efficiency :=  (* L85 *)
    if leb span_efficiency_factor (3 / 10) then
      let span_efficiency := span_efficiency_0 + span_efficiency_factor in  (* L86 *)
      span_efficiency
    else
      let span_efficiency := span_efficiency_0 * span_efficiency_factor in  (* L88 *)
      span_efficiency in
  let CDi := CL ^ 2 / (PI * AR * span_efficiency) in  (* L90 *)
  let deg_to_rad := PI / 180 in  (* L94 *)
  let TH := (1 - TR) / (1 + TR) / AR in  (* L96 *)
  let tan_sw := tan (SW25 / deg_to_rad) in  (* L97 *)
  let COSA := 1 / sqrt (1 + (tan_sw - 3 * TH) ^ 2) in  (* L98 *)
  let COSB := 1 / sqrt (1 + (tan_sw + TH) ^ 2) in  (* L99 *)
  let CAYT := 5 / 10 * ((11 / 10 - 11 / 100 / (11 / 10 - mach * COSA)) / (11 / 10 - 11 / 100 / (11 / 10 - mach *
      COSB)) - 1) ^ 2 in  (* L100 *)
  let CDi := CDi + CAYT * CL ^ 2 in  (* L106 *)
  let o_induced_drag_coeff := CDi in  (* L108 *)
  [(v_induced_drag_coeff, o_induced_drag_coeff)].

(** InducedDrag.compute_partials, /repo/aviary/subsystems/aerodynamics/flops_based/induced_drag.py L110-217 *)
Definition InducedDragForward_partials (op : options) (e : env) : list (string * string * R) :=
  let gamma := on op v_gamma in  (* L112 *)
  let mach := e Dynamic_Atmosphere_MACH in  (* L113 *)
  let lift := e Dynamic_Vehicle_LIFT in  (* L113 *)
  let P := e Dynamic_Atmosphere_STATIC_PRESSURE in  (* L113 *)
  let Sref := e Aircraft_Wing_AREA in  (* L113 *)
  let AR := e Aircraft_Wing_ASPECT_RATIO in  (* L113 *)
  let span_efficiency_factor := e Aircraft_Wing_SPAN_EFFICIENCY_FACTOR in  (* L113 *)
  let SW25 := e Aircraft_Wing_SWEEP in  (* L113 *)
  let TR := e Aircraft_Wing_TAPER_RATIO in  (* L113 *)
  let redux := ob op Aircraft_Wing_SPAN_EFFICIENCY_REDUCTION in  (* L114 *)
  let span_efficiency_0 := 1 in  (* L123 *)
  let span_efficiency :=  (* L125 *)
    if leb span_efficiency_factor (3 / 10) then
      let span_efficiency := span_efficiency_0 + span_efficiency_factor in  (* L126 *)
      span_efficiency
    else
      let span_efficiency := span_efficiency_0 * span_efficiency_factor in  (* L128 *)
      span_efficiency in
  let CL := 2 * lift / (Sref * gamma * P * mach ^ 2) in  (* L130 *)
  let dCL_dL := 2 / (Sref * gamma * P * mach ^ 2) in  (* L131 *)
  let dCL_dSref := - 2 * lift / (Sref ^ 2 * gamma * P * mach ^ 2) in  (* L132 *)
  let dCL_dP := - 2 * lift / (Sref * gamma * P ^ 2 * mach ^ 2) in  (* L133 *)
  let dCL_dmach := - 4 * lift / (Sref * gamma * P * mach ^ 3) in  (* L134 *)
  let dCDi_dCL := 2 * CL / (PI * AR * span_efficiency) in  (* L136 *)
  let dCDi_dAR := - CL ^ 2 / (PI * AR ^ 2 * span_efficiency) in  (* L137 *)
  let dCDi_dspan := - CL ^ 2 / (PI * AR * span_efficiency ^ 2) in  (* L138 *)
  let d_induced_drag_coeff__Atmosphere_MACH := dCDi_dCL * dCL_dmach in  (* L140 *)
  let d_induced_drag_coeff__Vehicle_LIFT := dCDi_dCL * dCL_dL in  (* L141 *)
  let d_induced_drag_coeff__Atmosphere_STATIC_PRESSURE := dCDi_dCL * dCL_dP in  (* L142 *)
  let d_induced_drag_coeff__Wing_ASPECT_RATIO := dCDi_dAR in  (* L143 *)
  let d_induced_drag_coeff__Wing_SPAN_EFFICIENCY_FACTOR := 0 in  (* L144 *)
  let d_induced_drag_coeff__Wing_SWEEP := 0 in  (* L145 *)
  let d_induced_drag_coeff__Wing_TAPER_RATIO := 0 in  (* L146 *)
  let d_induced_drag_coeff__Wing_AREA := dCDi_dCL * dCL_dSref in  (* L147 *)
  let '(d_induced_drag_coeff__Wing_SPAN_EFFICIENCY_FACTOR, d_induced_drag_coeff__Wing_ASPECT_RATIO,
      d_induced_drag_coeff__Wing_TAPER_RATIO) :=  (* L149 *)
    if leb span_efficiency_factor (3 / 10) then
      let d_induced_drag_coeff__Wing_SPAN_EFFICIENCY_FACTOR := dCDi_dspan in  (* L150 *)
      (d_induced_drag_coeff__Wing_SPAN_EFFICIENCY_FACTOR, d_induced_drag_coeff__Wing_ASPECT_RATIO,
          d_induced_drag_coeff__Wing_TAPER_RATIO)
    else
      let d_induced_drag_coeff__Wing_SPAN_EFFICIENCY_FACTOR := dCDi_dspan * span_efficiency_0 in  (* L155 *)
      (d_induced_drag_coeff__Wing_SPAN_EFFICIENCY_FACTOR, d_induced_drag_coeff__Wing_ASPECT_RATIO,
          d_induced_drag_coeff__Wing_TAPER_RATIO) in
  let deg_to_rad := PI / 180 in  (* L168 *)
  let fact1 := 1 - TR in  (* L170 *)
  let fact2 := 1 / (1 + TR) in  (* L171 *)
  let TH := fact1 * fact2 / AR in  (* L172 *)
  let dTH_dTR := - (fact2 + fact1 * fact2 ^ 2) / AR in  (* L173 *)
  let dTH_dAR := - fact1 * fact2 / AR ^ 2 in  (* L174 *)
  let tan_sw := tan (SW25 / deg_to_rad) in  (* L176 *)
  let dtansw_dsw := 1 / (deg_to_rad * cos (SW25 / deg_to_rad) ^ 2) in  (* L177 *)
  let fact3 := 1 + (tan_sw - 3 * TH) ^ 2 in  (* L179 *)
  let COSA := 1 / sqrt fact3 in  (* L180 *)
  let dCOSA_dtansw := - 5 / 10 / fact3 ** (15 / 10) * 2 * (tan_sw - 3 * TH) in  (* L181 *)
  let dCOSA_dTH := 5 / 10 / fact3 ** (15 / 10) * 6 * (tan_sw - 3 * TH) in  (* L182 *)
  let fact4 := 1 + (tan_sw + TH) ^ 2 in  (* L184 *)
  let COSB := 1 / sqrt fact4 in  (* L185 *)
  let dCOSB_dtansw := - 5 / 10 / fact4 ** (15 / 10) * 2 * (tan_sw + TH) in  (* L186 *)
  let dCOSB_dTH := - 5 / 10 / fact4 ** (15 / 10) * 2 * (tan_sw + TH) in  (* L187 *)
  let factA := 11 / 10 - mach * COSA in  (* L189 *)
  let factB := 11 / 10 - mach * COSB in  (* L190 *)
  let fact5 := 11 / 10 - 11 / 100 / factA in  (* L191 *)
  let fact6 := 11 / 10 - 11 / 100 / factB in  (* L192 *)
  let CAYT := 5 / 10 * (fact5 / fact6 - 1) ^ 2 in  (* L193 *)
  let dCAYT_dmach := (fact5 / fact6 - 1) * (- 11 / 100 * COSA / (fact6 * factA ^ 2) + 11 / 100 * fact5 * COSB / (factB
      ^ 2 * fact6 ^ 2)) in  (* L194 *)
  let dCAYT_dCOSA := (fact5 / fact6 - 1) * (- 11 / 100 * mach / (fact6 * factA ^ 2)) in  (* L197 *)
  let dCAYT_dCOSB := (fact5 / fact6 - 1) * (11 / 100 * fact5 * mach / (factB ^ 2 * fact6 ^ 2)) in  (* L198 *)
  let dCDi_dCAYT := CL ^ 2 in  (* L200 *)
  let dCDi_dCL := 2 * CAYT * CL in  (* L201 *)
  let d_induced_drag_coeff__Atmosphere_MACH := d_induced_drag_coeff__Atmosphere_MACH + (dCDi_dCL * dCL_dmach +
      dCDi_dCAYT * dCAYT_dmach) in  (* L203 *)
  let d_induced_drag_coeff__Vehicle_LIFT := d_induced_drag_coeff__Vehicle_LIFT + dCDi_dCL * dCL_dL in  (* L206 *)
  let d_induced_drag_coeff__Wing_ASPECT_RATIO := d_induced_drag_coeff__Wing_ASPECT_RATIO + dCDi_dCAYT * dTH_dAR *
      (dCAYT_dCOSA * dCOSA_dTH + dCAYT_dCOSB * dCOSB_dTH) in  (* L207 *)
  let d_induced_drag_coeff__Wing_SWEEP := d_induced_drag_coeff__Wing_SWEEP + dCDi_dCAYT * dtansw_dsw * (dCAYT_dCOSA *
      dCOSA_dtansw + dCAYT_dCOSB * dCOSB_dtansw) in  (* L210 *)
  let d_induced_drag_coeff__Atmosphere_STATIC_PRESSURE := d_induced_drag_coeff__Atmosphere_STATIC_PRESSURE + dCDi_dCL
      * dCL_dP in  (* L213 *)
  let d_induced_drag_coeff__Wing_TAPER_RATIO := d_induced_drag_coeff__Wing_TAPER_RATIO + dCDi_dCAYT * dTH_dTR *
      (dCAYT_dCOSA * dCOSA_dTH + dCAYT_dCOSB * dCOSB_dTH) in  (* L214 *)
  let d_induced_drag_coeff__Wing_AREA := d_induced_drag_coeff__Wing_AREA + dCDi_dCL * dCL_dSref in  (* L217 *)
  [(v_induced_drag_coeff, Dynamic_Atmosphere_MACH, d_induced_drag_coeff__Atmosphere_MACH);
   (v_induced_drag_coeff, Dynamic_Vehicle_LIFT, d_induced_drag_coeff__Vehicle_LIFT);
   (v_induced_drag_coeff, Dynamic_Atmosphere_STATIC_PRESSURE, d_induced_drag_coeff__Atmosphere_STATIC_PRESSURE);
   (v_induced_drag_coeff, Aircraft_Wing_ASPECT_RATIO, d_induced_drag_coeff__Wing_ASPECT_RATIO);
   (v_induced_drag_coeff, Aircraft_Wing_SPAN_EFFICIENCY_FACTOR, d_induced_drag_coeff__Wing_SPAN_EFFICIENCY_FACTOR);
   (v_induced_drag_coeff, Aircraft_Wing_SWEEP, d_induced_drag_coeff__Wing_SWEEP);
   (v_induced_drag_coeff, Aircraft_Wing_TAPER_RATIO, d_induced_drag_coeff__Wing_TAPER_RATIO);
   (v_induced_drag_coeff, Aircraft_Wing_AREA, d_induced_drag_coeff__Wing_AREA)].

(** Inputs, outputs and declared partials: /repo/aviary/subsystems/aerodynamics/flops_based/induced_drag.py L20-63 *)
Definition InducedDragForward (op : options) : comp := {|
  c_ins := [Dynamic_Atmosphere_MACH;
            Dynamic_Vehicle_LIFT;
            Dynamic_Atmosphere_STATIC_PRESSURE;
            Aircraft_Wing_AREA;
            Aircraft_Wing_ASPECT_RATIO;
            Aircraft_Wing_SPAN_EFFICIENCY_FACTOR;
            Aircraft_Wing_SWEEP;
            Aircraft_Wing_TAPER_RATIO];
  c_outs := [v_induced_drag_coeff];
  c_decl := [(v_induced_drag_coeff, Dynamic_Atmosphere_MACH, 0);
             (v_induced_drag_coeff, Dynamic_Vehicle_LIFT, 0);
             (v_induced_drag_coeff, Dynamic_Atmosphere_STATIC_PRESSURE, 0);
             (v_induced_drag_coeff, Aircraft_Wing_AREA, 0);
             (v_induced_drag_coeff, Aircraft_Wing_ASPECT_RATIO, 0);
             (v_induced_drag_coeff, Aircraft_Wing_SPAN_EFFICIENCY_FACTOR, 0);
             (v_induced_drag_coeff, Aircraft_Wing_SWEEP, 0);
             (v_induced_drag_coeff, Aircraft_Wing_TAPER_RATIO, 0)];
  c_run := InducedDragForward_compute op; c_jac := InducedDragForward_partials op |}.

(** The inputs that are scalars, shared by all nodes. *)
Definition InducedDragForward_shared : list string := [Aircraft_Wing_AREA; Aircraft_Wing_ASPECT_RATIO;
    Aircraft_Wing_SPAN_EFFICIENCY_FACTOR; Aircraft_Wing_SWEEP; Aircraft_Wing_TAPER_RATIO].

(** InducedDrag.compute, /repo/aviary/subsystems/aerodynamics/flops_based/induced_drag.py L65-108 *)
Definition InducedDragRedux_compute (op : options) (e : env) : list (string * R) :=
  let gamma := on op v_gamma in  (* L67 *)
  let mach := e Dynamic_Atmosphere_MACH in  (* L68 *)
  let lift := e Dynamic_Vehicle_LIFT in  (* L68 *)
  let P := e Dynamic_Atmosphere_STATIC_PRESSURE in  (* L68 *)
  let Sref := e Aircraft_Wing_AREA in  (* L68 *)
  let AR := e Aircraft_Wing_ASPECT_RATIO in  (* L68 *)
  let span_efficiency_factor := e Aircraft_Wing_SPAN_EFFICIENCY_FACTOR in  (* L68 *)
  let SW25 := e Aircraft_Wing_SWEEP in  (* L68 *)
  let TR := e Aircraft_Wing_TAPER_RATIO in  (* L68 *)
  let CL := 2 * lift / (Sref * gamma * P * mach ^ 2) in  (* L70 *)
  let redux := ob op Aircraft_Wing_SPAN_EFFICIENCY_REDUCTION in  (* L72 *)
  let span_efficiency_0 := 1 + 1 / 10 * AR * (4226 / 10000 * sqrt AR - 35 / 100 * TR - 143 / 1000) in  (* L81 *)
  let span_efficiency :=  (* L85 *)
    if leb span_efficiency_factor (3 / 10) then
      let span_efficiency := span_efficiency_0 + span_efficiency_factor in  (* L86 *)
      span_efficiency
    else
      let span_efficiency := span_efficiency_0 * span_efficiency_factor in  (* L88 *)
      span_efficiency in
  let CDi := CL ^ 2 / (PI * AR * span_efficiency) in  (* L90 *)
  let o_induced_drag_coeff := CDi in  (* L108 *)
  [(v_induced_drag_coeff, o_induced_drag_coeff)].

(** InducedDrag.compute_partials, /repo/aviary/subsystems/aerodynamics/flops_based/induced_drag.py L110-217 *)
Definition InducedDragRedux_partials (op : options) (e : env) : list (string * string * R) :=
  let gamma := on op v_gamma in  (* L112 *)
  let mach := e Dynamic_Atmosphere_MACH in  (* L113 *)
  let lift := e Dynamic_Vehicle_LIFT in  (* L113 *)
  let P := e Dynamic_Atmosphere_STATIC_PRESSURE in  (* L113 *)
  let Sref := e Aircraft_Wing_AREA in  (* L113 *)
  let AR := e Aircraft_Wing_ASPECT_RATIO in  (* L113 *)
  let span_efficiency_factor := e Aircraft_Wing_SPAN_EFFICIENCY_FACTOR in  (* L113 *)
  let SW25 := e Aircraft_Wing_SWEEP in  (* L113 *)
  let TR := e Aircraft_Wing_TAPER_RATIO in  (* L113 *)
  let redux := ob op Aircraft_Wing_SPAN_EFFICIENCY_REDUCTION in  (* L114 *)
  let sqrt_AR := sqrt AR in  (* L117 *)
  let span_efficiency_0 := 1 + 1 / 10 * AR * (4226 / 10000 * sqrt_AR - 35 / 100 * TR - 143 / 1000) in  (* L118 *)
  let dse0_dAR := 1 / 10 * (4226 / 10000 * (sqrt_AR + 5 / 10 * AR / sqrt_AR) - 35 / 100 * TR - 143 / 1000) in  (* L119 *)
  let dse0_dTR := - 35 / 1000 * AR in  (* L120 *)
  let span_efficiency :=  (* L125 *)
    if leb span_efficiency_factor (3 / 10) then
      let span_efficiency := span_efficiency_0 + span_efficiency_factor in  (* L126 *)
      span_efficiency
    else
      let span_efficiency := span_efficiency_0 * span_efficiency_factor in  (* L128 *)
      span_efficiency in
  let CL := 2 * lift / (Sref * gamma * P * mach ^ 2) in  (* L130 *)
  let dCL_dL := 2 / (Sref * gamma * P * mach ^ 2) in  (* L131 *)
  let dCL_dSref := - 2 * lift / (Sref ^ 2 * gamma * P * mach ^ 2) in  (* L132 *)
  let dCL_dP := - 2 * lift / (Sref * gamma * P ^ 2 * mach ^ 2) in  (* L133 *)
  let dCL_dmach := - 4 * lift / (Sref * gamma * P * mach ^ 3) in  (* L134 *)
  let dCDi_dCL := 2 * CL / (PI * AR * span_efficiency) in  (* L136 *)
  let dCDi_dAR := - CL ^ 2 / (PI * AR ^ 2 * span_efficiency) in  (* L137 *)
  let dCDi_dspan := - CL ^ 2 / (PI * AR * span_efficiency ^ 2) in  (* L138 *)
  let d_induced_drag_coeff__Atmosphere_MACH := dCDi_dCL * dCL_dmach in  (* L140 *)
  let d_induced_drag_coeff__Vehicle_LIFT := dCDi_dCL * dCL_dL in  (* L141 *)
  let d_induced_drag_coeff__Atmosphere_STATIC_PRESSURE := dCDi_dCL * dCL_dP in  (* L142 *)
  let d_induced_drag_coeff__Wing_ASPECT_RATIO := dCDi_dAR in  (* L143 *)
  let d_induced_drag_coeff__Wing_SPAN_EFFICIENCY_FACTOR := 0 in  (* L144 *)
  let d_induced_drag_coeff__Wing_SWEEP := 0 in  (* L145 *)
  let d_induced_drag_coeff__Wing_TAPER_RATIO := 0 in  (* L146 *)
  let d_induced_drag_coeff__Wing_AREA := dCDi_dCL * dCL_dSref in  (* L147 *)
  let '(d_induced_drag_coeff__Wing_SPAN_EFFICIENCY_FACTOR, d_induced_drag_coeff__Wing_ASPECT_RATIO,
      d_induced_drag_coeff__Wing_TAPER_RATIO) :=  (* L149 *)
    if leb span_efficiency_factor (3 / 10) then
      let d_induced_drag_coeff__Wing_SPAN_EFFICIENCY_FACTOR := dCDi_dspan in  (* L150 *)
      let d_induced_drag_coeff__Wing_ASPECT_RATIO := d_induced_drag_coeff__Wing_ASPECT_RATIO + dCDi_dspan * dse0_dAR
          in  (* L152 *)
      let d_induced_drag_coeff__Wing_TAPER_RATIO := dCDi_dspan * dse0_dTR in  (* L153 *)
      (d_induced_drag_coeff__Wing_SPAN_EFFICIENCY_FACTOR, d_induced_drag_coeff__Wing_ASPECT_RATIO,
          d_induced_drag_coeff__Wing_TAPER_RATIO)
    else
      let d_induced_drag_coeff__Wing_SPAN_EFFICIENCY_FACTOR := dCDi_dspan * span_efficiency_0 in  (* L155 *)
      let d_induced_drag_coeff__Wing_ASPECT_RATIO := d_induced_drag_coeff__Wing_ASPECT_RATIO + dCDi_dspan * dse0_dAR *
          span_efficiency_factor in  (* L159 *)
      let d_induced_drag_coeff__Wing_TAPER_RATIO := dCDi_dspan * dse0_dTR * span_efficiency_factor in  (* L162 *)
      (d_induced_drag_coeff__Wing_SPAN_EFFICIENCY_FACTOR, d_induced_drag_coeff__Wing_ASPECT_RATIO,
          d_induced_drag_coeff__Wing_TAPER_RATIO) in
  [(v_induced_drag_coeff, Dynamic_Atmosphere_MACH, d_induced_drag_coeff__Atmosphere_MACH);
   (v_induced_drag_coeff, Dynamic_Vehicle_LIFT, d_induced_drag_coeff__Vehicle_LIFT);
   (v_induced_drag_coeff, Dynamic_Atmosphere_STATIC_PRESSURE, d_induced_drag_coeff__Atmosphere_STATIC_PRESSURE);
   (v_induced_drag_coeff, Aircraft_Wing_ASPECT_RATIO, d_induced_drag_coeff__Wing_ASPECT_RATIO);
   (v_induced_drag_coeff, Aircraft_Wing_SPAN_EFFICIENCY_FACTOR, d_induced_drag_coeff__Wing_SPAN_EFFICIENCY_FACTOR);
   (v_induced_drag_coeff, Aircraft_Wing_SWEEP, d_induced_drag_coeff__Wing_SWEEP);
   (v_induced_drag_coeff, Aircraft_Wing_TAPER_RATIO, d_induced_drag_coeff__Wing_TAPER_RATIO);
   (v_induced_drag_coeff, Aircraft_Wing_AREA, d_induced_drag_coeff__Wing_AREA)].

(** Inputs, outputs and declared partials: /repo/aviary/subsystems/aerodynamics/flops_based/induced_drag.py L20-63 *)
Definition InducedDragRedux (op : options) : comp := {|
  c_ins := [Dynamic_Atmosphere_MACH;
            Dynamic_Vehicle_LIFT;
            Dynamic_Atmosphere_STATIC_PRESSURE;
            Aircraft_Wing_AREA;
            Aircraft_Wing_ASPECT_RATIO;
            Aircraft_Wing_SPAN_EFFICIENCY_FACTOR;
            Aircraft_Wing_SWEEP;
            Aircraft_Wing_TAPER_RATIO];
  c_outs := [v_induced_drag_coeff];
  c_decl := [(v_induced_drag_coeff, Dynamic_Atmosphere_MACH, 0);
             (v_induced_drag_coeff, Dynamic_Vehicle_LIFT, 0);
             (v_induced_drag_coeff, Dynamic_Atmosphere_STATIC_PRESSURE, 0);
             (v_induced_drag_coeff, Aircraft_Wing_AREA, 0);
             (v_induced_drag_coeff, Aircraft_Wing_ASPECT_RATIO, 0);
             (v_induced_drag_coeff, Aircraft_Wing_SPAN_EFFICIENCY_FACTOR, 0);
             (v_induced_drag_coeff, Aircraft_Wing_SWEEP, 0);
             (v_induced_drag_coeff, Aircraft_Wing_TAPER_RATIO, 0)];
  c_run := InducedDragRedux_compute op; c_jac := InducedDragRedux_partials op |}.

(** The inputs that are scalars, shared by all nodes. *)
Definition InducedDragRedux_shared : list string := [Aircraft_Wing_AREA; Aircraft_Wing_ASPECT_RATIO;
    Aircraft_Wing_SPAN_EFFICIENCY_FACTOR; Aircraft_Wing_SWEEP; Aircraft_Wing_TAPER_RATIO].

(** BuffetLift.compute, /repo/aviary/subsystems/aerodynamics/flops_based/buffet_lift.py L56-71 *)
Definition BuffetLift_compute (BUFT : R -> R -> R) (BUFT1 : R -> R -> R) (BUFT2 : R -> R -> R) (op : options) (e :
    env) : list (string * R) :=
  let mach := e Dynamic_Atmosphere_MACH in  (* L58 *)
  let design_Mach := e Aircraft_Design_MACH in  (* L58 *)
  let AR := e Aircraft_Wing_ASPECT_RATIO in  (* L58 *)
  let CAM := e Aircraft_Wing_MAX_CAMBER_AT_70_SEMISPAN in  (* L58 *)
  let SW25 := e Aircraft_Wing_SWEEP in  (* L58 *)
  let TC := e Aircraft_Wing_THICKNESS_TO_CHORD in  (* L58 *)
  let del_Mach := mach - design_Mach in  (* L60 *)
  let TC23 := TC ** (2 / 3) in  (* L62 *)
  let FCLB := BUFT TC23 del_Mach in  (* L66 *)
  let DELCLB := FCLB * (AR * (1 + CAM / 10) / cos (SW25 / (PI / 180))) in  (* L67 *)
  let o_DELCLB := DELCLB in  (* L71 *)
  [(v_DELCLB, o_DELCLB)].

(** BuffetLift.compute_partials, /repo/aviary/subsystems/aerodynamics/flops_based/buffet_lift.py L73-117 *)
Definition BuffetLift_partials (BUFT : R -> R -> R) (BUFT1 : R -> R -> R) (BUFT2 : R -> R -> R) (op : options) (e :
    env) : list (string * string * R) :=
  let TC := e Aircraft_Wing_THICKNESS_TO_CHORD in  (* L74 *)
  let SW25 := e Aircraft_Wing_SWEEP in  (* L75 *)
  let AR := e Aircraft_Wing_ASPECT_RATIO in  (* L76 *)
  let CAM := e Aircraft_Wing_MAX_CAMBER_AT_70_SEMISPAN in  (* L77 *)
  let FCLB := BUFT (TC ** (2 / 3)) (e Dynamic_Atmosphere_MACH - e Aircraft_Design_MACH) in  (* L79 *)
  let dFCLB_dTC23 := BUFT1 (TC ** (2 / 3)) (e Dynamic_Atmosphere_MACH - e Aircraft_Design_MACH) in  (* L80 *)
  let dFCLB_ddel_Mach := BUFT2 (TC ** (2 / 3)) (e Dynamic_Atmosphere_MACH - e Aircraft_Design_MACH) in  (* L81 *)
  let a := PI / 180 in  (* L83 *)
  let SW25_rad := SW25 / a in  (* L84 *)
  let cos_fact := 1 / cos SW25_rad in  (* L85 *)
  let dTC23_dTC := 2 / 3 * TC ** (- 1 / 3) in  (* L87 *)
  let dDELCLB_dFCLB := AR * (1 + CAM / 10) * cos_fact in  (* L88 *)
  let ddel_Mach_dMach := 1 in  (* L89 *)
  let ddel_Mach_ddesign_Mach := - 1 in  (* L90 *)
  let dCLB_dMach := dDELCLB_dFCLB * dFCLB_ddel_Mach * ddel_Mach_dMach in  (* L93 *)
  let dCLB_ddesign_Mach := dDELCLB_dFCLB * dFCLB_ddel_Mach * ddel_Mach_ddesign_Mach in  (* L96 *)
  let dCLB_dAR := FCLB * (1 + CAM / 10) * cos_fact in  (* L99 *)
  let dCLB_dTC := dDELCLB_dFCLB * dFCLB_dTC23 * dTC23_dTC in  (* L102 *)
  let dCLB_dSW25 := 1 / a * AR * FCLB * (1 + CAM / 10) * sin SW25_rad * cos_fact ^ 2 in  (* L105 *)
  let dCLB_dCAM := FCLB * AR / 10 * cos_fact in  (* L108 *)
  let d_DELCLB__Atmosphere_MACH := dCLB_dMach in  (* L110 *)
  let d_DELCLB__Design_MACH := dCLB_ddesign_Mach in  (* L111 *)
  let d_DELCLB__Wing_ASPECT_RATIO := dCLB_dAR in  (* L112 *)
  let d_DELCLB__Wing_THICKNESS_TO_CHORD := dCLB_dTC in  (* L113 *)
  let d_DELCLB__Wing_SWEEP := dCLB_dSW25 in  (* L114 *)
  let d_DELCLB__Wing_MAX_CAMBER_AT_70_SEMISPAN := dCLB_dCAM in  (* L115 *)
  [(v_DELCLB, Dynamic_Atmosphere_MACH, d_DELCLB__Atmosphere_MACH);
   (v_DELCLB, Aircraft_Design_MACH, d_DELCLB__Design_MACH);
   (v_DELCLB, Aircraft_Wing_ASPECT_RATIO, d_DELCLB__Wing_ASPECT_RATIO);
   (v_DELCLB, Aircraft_Wing_THICKNESS_TO_CHORD, d_DELCLB__Wing_THICKNESS_TO_CHORD);
   (v_DELCLB, Aircraft_Wing_SWEEP, d_DELCLB__Wing_SWEEP);
   (v_DELCLB, Aircraft_Wing_MAX_CAMBER_AT_70_SEMISPAN, d_DELCLB__Wing_MAX_CAMBER_AT_70_SEMISPAN)].

(** Inputs, outputs and declared partials: /repo/aviary/subsystems/aerodynamics/flops_based/buffet_lift.py L19-54 *)
Definition BuffetLift (BUFT : R -> R -> R) (BUFT1 : R -> R -> R) (BUFT2 : R -> R -> R) (op : options) : comp := {|
  c_ins := [Dynamic_Atmosphere_MACH;
            Aircraft_Design_MACH;
            Aircraft_Wing_ASPECT_RATIO;
            Aircraft_Wing_MAX_CAMBER_AT_70_SEMISPAN;
            Aircraft_Wing_SWEEP;
            Aircraft_Wing_THICKNESS_TO_CHORD];
  c_outs := [v_DELCLB];
  c_decl := [(v_DELCLB, Dynamic_Atmosphere_MACH, 0);
             (v_DELCLB, Aircraft_Wing_ASPECT_RATIO, 0);
             (v_DELCLB, Aircraft_Wing_MAX_CAMBER_AT_70_SEMISPAN, 0);
             (v_DELCLB, Aircraft_Wing_SWEEP, 0);
             (v_DELCLB, Aircraft_Wing_THICKNESS_TO_CHORD, 0);
             (v_DELCLB, Aircraft_Design_MACH, 0)];
  c_run := BuffetLift_compute BUFT BUFT1 BUFT2 op; c_jac := BuffetLift_partials BUFT BUFT1 BUFT2 op |}.

(** The inputs that are scalars, shared by all nodes. *)
Definition BuffetLift_shared : list string := [Aircraft_Design_MACH; Aircraft_Wing_ASPECT_RATIO;
    Aircraft_Wing_MAX_CAMBER_AT_70_SEMISPAN; Aircraft_Wing_SWEEP; Aircraft_Wing_THICKNESS_TO_CHORD].

(** CompressibilityDrag.compute, /repo/aviary/subsystems/aerodynamics/flops_based/compressibility_drag.py L165-214 *)
Definition CompressSub_compute (PCW : R -> R -> R) (PCW1 : R -> R -> R) (PCW2 : R -> R -> R) (BSUB : R -> R -> R)
    (BSUB1 : R -> R -> R) (BSUB2 : R -> R -> R) (op : options) (e : env) : list (string * R) :=
  let mach := e Dynamic_Atmosphere_MACH in  (* L167 *)
  let del_mach := mach - e Aircraft_Design_MACH in  (* L169 *)
  let TC := e Aircraft_Wing_THICKNESS_TO_CHORD in  (* L170 *)
  let max_camber_70 := e Aircraft_Wing_MAX_CAMBER_AT_70_SEMISPAN in  (* L171 *)
  let fuse_area := e Aircraft_Fuselage_CROSS_SECTION in  (* L172 *)
  let base_area := e Aircraft_Design_BASE_AREA in  (* L173 *)
  let wing_area := e Aircraft_Wing_AREA in  (* L174 *)
  let fuselage_len_to_diam_ratio := e Aircraft_Fuselage_LENGTH_TO_DIAMETER in  (* L175 *)
  let TOC := TC ** (2 / 3) in  (* L177 *)
  let CD1 := PCW del_mach TOC in  (* L181 *)
  let CD1 := if leb CD1 0 then 0 else CD1 in  (* L185 *)
  let compress_drag_coeff := CD1 * (TC ** (5 / 3) * (1 + 1 / 10 * max_camber_70)) in  (* L188 *)
  let '(CD2, compress_drag_coeff) :=  (* L191 *)
    if ltb 0 fuse_area then
      let SOS := 1 + base_area / fuse_area in  (* L192 *)
      let CD2 := BSUB mach SOS in  (* L195 *)
      let CD2 := if leb CD2 0 then 0 else CD2 in  (* L199 *)
      let fuselage_compress_drag_coeff := CD2 * (fuse_area / wing_area * (1 / fuselage_len_to_diam_ratio ^ 2)) in  (* L202 *)
      let compress_drag_coeff := compress_drag_coeff + fuselage_compress_drag_coeff in  (* L206 *)
      (CD2, compress_drag_coeff)
    else
      let CD2 := 0 in  (* L209 *)
      (CD2, compress_drag_coeff) in
  let o_compress_drag_coeff := compress_drag_coeff in  (* L214 *)
  [(v_compress_drag_coeff, o_compress_drag_coeff)].

(** CompressibilityDrag.compute_partials, /repo/aviary/subsystems/aerodynamics/flops_based/compressibility_drag.py L373-455 *)
Definition CompressSub_partials (PCW : R -> R -> R) (PCW1 : R -> R -> R) (PCW2 : R -> R -> R) (BSUB : R -> R -> R)
    (BSUB1 : R -> R -> R) (BSUB2 : R -> R -> R) (op : options) (e : env) : list (string * string * R) :=
  let TC := e Aircraft_Wing_THICKNESS_TO_CHORD in  (* L374 *)
  let max_camber_70 := e Aircraft_Wing_MAX_CAMBER_AT_70_SEMISPAN in  (* L375 *)
  let fuse_area := e Aircraft_Fuselage_CROSS_SECTION in  (* L376 *)
  let base_area := e Aircraft_Design_BASE_AREA in  (* L377 *)
  let wing_area := e Aircraft_Wing_AREA in  (* L378 *)
  let fuselage_len_to_diam_ratio := e Aircraft_Fuselage_LENGTH_TO_DIAMETER in  (* L379 *)
  let CD1 := if leb (PCW (e Dynamic_Atmosphere_MACH - e Aircraft_Design_MACH) (TC ** (2 / 3))) 0 then 0 else PCW (e
      Dynamic_Atmosphere_MACH - e Aircraft_Design_MACH) (TC ** (2 / 3)) in  (* L381 *)
  let CD2 := if leb (BSUB (e Dynamic_Atmosphere_MACH) (1 + base_area / fuse_area)) 0 then 0 else BSUB (e
      Dynamic_Atmosphere_MACH) (1 + base_area / fuse_area) in  (* L382 *)
  let dCd1_dCD1 := TC ** (5 / 3) * (1 + 1 / 10 * max_camber_70) in  (* L384 *)
  let dCd2_dCD2 := fuse_area / wing_area * (1 / fuselage_len_to_diam_ratio ^ 2) in  (* L385 *)
  let dTOC_dTC := 2 / 3 * TC ** (- 1 / 3) in  (* L386 *)
  let ddel_mach_dMach := 1 in  (* L388 *)
  let dCD1_ddel_mach := if leb (PCW (e Dynamic_Atmosphere_MACH - e Aircraft_Design_MACH) (TC ** (2 / 3))) 0 then 0
      else PCW1 (e Dynamic_Atmosphere_MACH - e Aircraft_Design_MACH) (TC ** (2 / 3)) in  (* L391 *)
  let dCD1_dTOC := if leb (PCW (e Dynamic_Atmosphere_MACH - e Aircraft_Design_MACH) (TC ** (2 / 3))) 0 then 0 else
      PCW2 (e Dynamic_Atmosphere_MACH - e Aircraft_Design_MACH) (TC ** (2 / 3)) in  (* L392 *)
  let dCD2_dMach := if leb (BSUB (e Dynamic_Atmosphere_MACH) (1 + base_area / fuse_area)) 0 then 0 else BSUB1 (e
      Dynamic_Atmosphere_MACH) (1 + base_area / fuse_area) in  (* L393 *)
  let dCD2_dSOS := if leb (BSUB (e Dynamic_Atmosphere_MACH) (1 + base_area / fuse_area)) 0 then 0 else BSUB2 (e
      Dynamic_Atmosphere_MACH) (1 + base_area / fuse_area) in  (* L394 *)
  let dCd1_dMach := dCd1_dCD1 * dCD1_ddel_mach * ddel_mach_dMach in  (* L397 *)
  let dCd2_dMach := dCd2_dCD2 * dCD2_dMach in  (* L398 *)
  let dCd_dMach := dCd1_dMach + dCd2_dMach in  (* L399 *)
  let dCd_ddesign_Mach := - dCd1_dCD1 * dCD1_ddel_mach in  (* L402 *)
  let dCd1_dTC := 5 / 3 * CD1 * (1 + 1 / 10 * max_camber_70) * TC ** (2 / 3) in  (* L405 *)
  let dCD1_dTC := dCD1_dTOC * dTOC_dTC in  (* L406 *)
  let dCd_dTC := dCd1_dTC + dCd1_dCD1 * dCD1_dTC in  (* L407 *)
  let dCd_dmax_camber_70 := CD1 * (1 / 10) * TC ** (5 / 3) in  (* L410 *)
  let d_compress_drag_coeff__Atmosphere_MACH := dCd_dMach in  (* L412 *)
  let d_compress_drag_coeff__Design_MACH := dCd_ddesign_Mach in  (* L413 *)
  let d_compress_drag_coeff__Wing_THICKNESS_TO_CHORD := dCd_dTC in  (* L414 *)
  let d_compress_drag_coeff__Wing_MAX_CAMBER_AT_70_SEMISPAN := dCd_dmax_camber_70 in  (* L415 *)
  let '(d_compress_drag_coeff__Fuselage_CROSS_SECTION, d_compress_drag_coeff__Design_BASE_AREA,
      d_compress_drag_coeff__Wing_AREA, d_compress_drag_coeff__Fuselage_LENGTH_TO_DIAMETER) :=  (* L420 *)
    if ltb 0 fuse_area then
      let dCd2_dfuse_area := CD2 / (wing_area * fuselage_len_to_diam_ratio ^ 2) in  (* L421 *)
      let dSOS_dfuse_area := - base_area / fuse_area ^ 2 in  (* L422 *)
      let dCd_dfuse_area := dCd2_dfuse_area + dCd2_dCD2 * dCD2_dSOS * dSOS_dfuse_area in  (* L423 *)
      let dSOS_dbase_area := 1 / fuse_area in  (* L426 *)
      let dCd_dbase_area := dCd2_dCD2 * dCD2_dSOS * dSOS_dbase_area in  (* L427 *)
      let dCd_dwing_area := - CD2 * fuse_area / (wing_area * fuselage_len_to_diam_ratio) ^ 2 in  (* L430 *)
      let dCd_dfuselage_len_to_diam_ratio := - 2 * CD2 * fuse_area / (wing_area * fuselage_len_to_diam_ratio ^ 3) in  (* L433 *)
      let d_compress_drag_coeff__Fuselage_CROSS_SECTION := dCd_dfuse_area in  (* L437 *)
      let d_compress_drag_coeff__Design_BASE_AREA := dCd_dbase_area in  (* L440 *)
      let d_compress_drag_coeff__Wing_AREA := dCd_dwing_area in  (* L441 *)
      let d_compress_drag_coeff__Fuselage_LENGTH_TO_DIAMETER := dCd_dfuselage_len_to_diam_ratio in  (* L442 *)
      (d_compress_drag_coeff__Fuselage_CROSS_SECTION, d_compress_drag_coeff__Design_BASE_AREA,
          d_compress_drag_coeff__Wing_AREA, d_compress_drag_coeff__Fuselage_LENGTH_TO_DIAMETER)
    else
      let d_compress_drag_coeff__Fuselage_CROSS_SECTION := 0 in  (* L447 *)
      let d_compress_drag_coeff__Design_BASE_AREA := 0 in  (* L448 *)
      let d_compress_drag_coeff__Wing_AREA := 0 in  (* L449 *)
      let d_compress_drag_coeff__Fuselage_LENGTH_TO_DIAMETER := 0 in  (* L450 *)
      (d_compress_drag_coeff__Fuselage_CROSS_SECTION, d_compress_drag_coeff__Design_BASE_AREA,
          d_compress_drag_coeff__Wing_AREA, d_compress_drag_coeff__Fuselage_LENGTH_TO_DIAMETER) in
  let d_compress_drag_coeff__Wing_TAPER_RATIO := 0 in  (* L452 *)
  let d_compress_drag_coeff__Wing_SWEEP := 0 in  (* L453 *)
  let d_compress_drag_coeff__Wing_ASPECT_RATIO := 0 in  (* L454 *)
  let d_compress_drag_coeff__Fuselage_DIAMETER_TO_WING_SPAN := 0 in  (* L455 *)
  [(v_compress_drag_coeff, Dynamic_Atmosphere_MACH, d_compress_drag_coeff__Atmosphere_MACH);
   (v_compress_drag_coeff, Aircraft_Design_MACH, d_compress_drag_coeff__Design_MACH);
   (v_compress_drag_coeff, Aircraft_Wing_THICKNESS_TO_CHORD, d_compress_drag_coeff__Wing_THICKNESS_TO_CHORD);
   (v_compress_drag_coeff, Aircraft_Wing_MAX_CAMBER_AT_70_SEMISPAN,
       d_compress_drag_coeff__Wing_MAX_CAMBER_AT_70_SEMISPAN);
   (v_compress_drag_coeff, Aircraft_Fuselage_CROSS_SECTION, d_compress_drag_coeff__Fuselage_CROSS_SECTION);
   (v_compress_drag_coeff, Aircraft_Design_BASE_AREA, d_compress_drag_coeff__Design_BASE_AREA);
   (v_compress_drag_coeff, Aircraft_Wing_AREA, d_compress_drag_coeff__Wing_AREA);
   (v_compress_drag_coeff, Aircraft_Fuselage_LENGTH_TO_DIAMETER, d_compress_drag_coeff__Fuselage_LENGTH_TO_DIAMETER);
   (v_compress_drag_coeff, Aircraft_Wing_TAPER_RATIO, d_compress_drag_coeff__Wing_TAPER_RATIO);
   (v_compress_drag_coeff, Aircraft_Wing_SWEEP, d_compress_drag_coeff__Wing_SWEEP);
   (v_compress_drag_coeff, Aircraft_Wing_ASPECT_RATIO, d_compress_drag_coeff__Wing_ASPECT_RATIO);
   (v_compress_drag_coeff, Aircraft_Fuselage_DIAMETER_TO_WING_SPAN,
       d_compress_drag_coeff__Fuselage_DIAMETER_TO_WING_SPAN)].

(** Inputs, outputs and declared partials: /repo/aviary/subsystems/aerodynamics/flops_based/compressibility_drag.py L17-71 *)
Definition CompressSub (PCW : R -> R -> R) (PCW1 : R -> R -> R) (PCW2 : R -> R -> R) (BSUB : R -> R -> R) (BSUB1 : R
    -> R -> R) (BSUB2 : R -> R -> R) (op : options) : comp := {|
  c_ins := [Dynamic_Atmosphere_MACH;
            Aircraft_Design_MACH;
            Aircraft_Design_BASE_AREA;
            Aircraft_Wing_AREA;
            Aircraft_Wing_ASPECT_RATIO;
            Aircraft_Wing_MAX_CAMBER_AT_70_SEMISPAN;
            Aircraft_Wing_SWEEP;
            Aircraft_Wing_TAPER_RATIO;
            Aircraft_Wing_THICKNESS_TO_CHORD;
            Aircraft_Fuselage_CROSS_SECTION;
            Aircraft_Fuselage_DIAMETER_TO_WING_SPAN;
            Aircraft_Fuselage_LENGTH_TO_DIAMETER];
  c_outs := [v_compress_drag_coeff];
  c_decl := [(v_compress_drag_coeff, Dynamic_Atmosphere_MACH, 0);
             (v_compress_drag_coeff, Aircraft_Wing_THICKNESS_TO_CHORD, 0);
             (v_compress_drag_coeff, Aircraft_Wing_ASPECT_RATIO, 0);
             (v_compress_drag_coeff, Aircraft_Wing_SWEEP, 0);
             (v_compress_drag_coeff, Aircraft_Wing_MAX_CAMBER_AT_70_SEMISPAN, 0);
             (v_compress_drag_coeff, Aircraft_Fuselage_CROSS_SECTION, 0);
             (v_compress_drag_coeff, Aircraft_Wing_AREA, 0);
             (v_compress_drag_coeff, Aircraft_Fuselage_LENGTH_TO_DIAMETER, 0);
             (v_compress_drag_coeff, Aircraft_Wing_TAPER_RATIO, 0);
             (v_compress_drag_coeff, Aircraft_Fuselage_DIAMETER_TO_WING_SPAN, 0);
             (v_compress_drag_coeff, Aircraft_Design_BASE_AREA, 0);
             (v_compress_drag_coeff, Aircraft_Design_MACH, 0)];
  c_run := CompressSub_compute PCW PCW1 PCW2 BSUB BSUB1 BSUB2 op; c_jac := CompressSub_partials PCW PCW1 PCW2 BSUB
      BSUB1 BSUB2 op |}.

(** The inputs that are scalars, shared by all nodes. *)
Definition CompressSub_shared : list string := [Aircraft_Design_MACH; Aircraft_Design_BASE_AREA; Aircraft_Wing_AREA;
    Aircraft_Wing_ASPECT_RATIO; Aircraft_Wing_MAX_CAMBER_AT_70_SEMISPAN; Aircraft_Wing_SWEEP;
    Aircraft_Wing_TAPER_RATIO; Aircraft_Wing_THICKNESS_TO_CHORD; Aircraft_Fuselage_CROSS_SECTION;
    Aircraft_Fuselage_DIAMETER_TO_WING_SPAN; Aircraft_Fuselage_LENGTH_TO_DIAMETER].

(** CompressibilityDrag.compute, /repo/aviary/subsystems/aerodynamics/flops_based/compressibility_drag.py L87-163 *)
Definition CompressSuper_compute (PCAR : R -> R -> R) (PCAR1 : R -> R -> R) (PCAR2 : R -> R -> R) (BSUP : R -> R -> R)
    (BSUP1 : R -> R -> R) (BSUP2 : R -> R -> R) (WFI : R -> R -> R) (WFI1 : R -> R -> R) (WFI2 : R -> R -> R) (op :
    options) (e : env) : list (string * R) :=
  let mach := e Dynamic_Atmosphere_MACH in  (* L89 *)
  let del_mach := mach - e Aircraft_Design_MACH in  (* L91 *)
  let AR := e Aircraft_Wing_ASPECT_RATIO in  (* L92 *)
  let TC := e Aircraft_Wing_THICKNESS_TO_CHORD in  (* L93 *)
  let max_camber_70 := e Aircraft_Wing_MAX_CAMBER_AT_70_SEMISPAN in  (* L94 *)
  let sweep25 := e Aircraft_Wing_SWEEP in  (* L95 *)
  let wing_taper_ratio := e Aircraft_Wing_TAPER_RATIO in  (* L96 *)
  let fuse_area := e Aircraft_Fuselage_CROSS_SECTION in  (* L97 *)
  let base_area := e Aircraft_Design_BASE_AREA in  (* L98 *)
  let wing_area := e Aircraft_Wing_AREA in  (* L99 *)
  let fuselage_len_to_diam_ratio := e Aircraft_Fuselage_LENGTH_TO_DIAMETER in  (* L100 *)
  let diam_to_wing_span_ratio := e Aircraft_Fuselage_DIAMETER_TO_WING_SPAN in  (* L101 *)
  let ART := AR * tan (sweep25 / (572958 / 10000)) + (1 - wing_taper_ratio) / (1 + wing_taper_ratio) in  (* L103 *)
  let CD3 := PCAR del_mach ART in  (* L107 *)
  let CD3 := if leb CD3 0 then 0 else CD3 in  (* L111 *)
  let compress_drag_coeff := CD3 * (TC ** (5 / 3) * (1 + 1 / 10 * max_camber_70)) in  (* L114 *)
  let '(CD4, compress_drag_coeff, CD5, wing_taper_ratio) :=  (* L117 *)
    if ltb 0 fuse_area then
      let SOS := 1 + base_area / fuse_area in  (* L118 *)
      let CD4 := BSUP mach SOS in  (* L121 *)
      let CD4 := if leb CD4 0 then 0 else CD4 in  (* L125 *)
      let fuselage_compress_drag_coeff := CD4 * (fuse_area / wing_area * (1 / fuselage_len_to_diam_ratio ^ 2)) in  (* L128 *)
      let compress_drag_coeff := compress_drag_coeff + fuselage_compress_drag_coeff in  (* L132 *)
      let idx_mach := leb 1 mach in  (* L135 *)
      let '(CD5, wing_taper_ratio, compress_drag_coeff) :=  (* L136 *)
        if leb 1 mach then
          let CD5 := WFI mach diam_to_wing_span_ratio in  (* L138 *)
          let wing_taper_ratio :=  (* L141 *)
            if eqb wing_taper_ratio 1 then
              let wing_taper_ratio := 5 / 10 in  (* L142 *)
              wing_taper_ratio
            else
              wing_taper_ratio in
          let int_compress_drag_coeff := CD5 * (1 / (1 - wing_taper_ratio) / cos (sweep25 / (572958 / 10000))) in  (* L144 *)
          let compress_drag_coeff := compress_drag_coeff + int_compress_drag_coeff in  (* L148 *)
          (CD5, wing_taper_ratio, compress_drag_coeff)
        else
          let CD5 := 0 in  (* L151 *)
          (CD5, wing_taper_ratio, compress_drag_coeff) in
      (CD4, compress_drag_coeff, CD5, wing_taper_ratio)
    else
      let CD4 := 0 in  (* L155 *)
      let CD5 := 0 in  (* L157 *)
      (CD4, compress_drag_coeff, CD5, wing_taper_ratio) in
  let o_compress_drag_coeff := compress_drag_coeff in  (* L163 *)
  [(v_compress_drag_coeff, o_compress_drag_coeff)].

(** CompressibilityDrag.compute_partials, /repo/aviary/subsystems/aerodynamics/flops_based/compressibility_drag.py L234-371 *)
Definition CompressSuper_partials (PCAR : R -> R -> R) (PCAR1 : R -> R -> R) (PCAR2 : R -> R -> R) (BSUP : R -> R ->
    R) (BSUP1 : R -> R -> R) (BSUP2 : R -> R -> R) (WFI : R -> R -> R) (WFI1 : R -> R -> R) (WFI2 : R -> R -> R) (op :
    options) (e : env) : list (string * string * R) :=
  let mach := e Dynamic_Atmosphere_MACH in  (* L235 *)
  let AR := e Aircraft_Wing_ASPECT_RATIO in  (* L236 *)
  let TC := e Aircraft_Wing_THICKNESS_TO_CHORD in  (* L237 *)
  let max_camber_70 := e Aircraft_Wing_MAX_CAMBER_AT_70_SEMISPAN in  (* L238 *)
  let sweep25 := e Aircraft_Wing_SWEEP in  (* L239 *)
  let wing_taper_ratio := e Aircraft_Wing_TAPER_RATIO in  (* L240 *)
  let fuse_area := e Aircraft_Fuselage_CROSS_SECTION in  (* L241 *)
  let base_area := e Aircraft_Design_BASE_AREA in  (* L242 *)
  let wing_area := e Aircraft_Wing_AREA in  (* L243 *)
  let fuselage_len_to_diam_ratio := e Aircraft_Fuselage_LENGTH_TO_DIAMETER in  (* L244 *)
  let CD3 := if leb (PCAR (mach - e Aircraft_Design_MACH) (AR * tan (sweep25 / (572958 / 10000)) + (1 -
      wing_taper_ratio) / (1 + wing_taper_ratio))) 0 then 0 else PCAR (mach - e Aircraft_Design_MACH) (AR * tan
      (sweep25 / (572958 / 10000)) + (1 - wing_taper_ratio) / (1 + wing_taper_ratio)) in  (* L246 *)
  let CD4 := if leb (BSUP mach (1 + base_area / fuse_area)) 0 then 0 else BSUP mach (1 + base_area / fuse_area) in  (* L247 *)
  let CD5 := WFI mach (e Aircraft_Fuselage_DIAMETER_TO_WING_SPAN) in  (* L248 *)
  let dCd3_dCD3 := TC ** (5 / 3) * (1 + max_camber_70 / 10) in  (* L250 *)
  let dCd4_dCD4 := fuse_area / wing_area * (1 / fuselage_len_to_diam_ratio ^ 2) in  (* L251 *)
  let dCd5_dCD5 := 1 / (1 - wing_taper_ratio) / cos (sweep25 / (572958 / 10000)) in  (* L252 *)
  let ddel_mach_ddesign_Mach := - 1 in  (* L254 *)
  let ddel_mach_dMach := 1 in  (* L255 *)
  let dCD3_ddel_mach := if leb (PCAR (mach - e Aircraft_Design_MACH) (AR * tan (sweep25 / (572958 / 10000)) + (1 -
      wing_taper_ratio) / (1 + wing_taper_ratio))) 0 then 0 else PCAR1 (mach - e Aircraft_Design_MACH) (AR * tan
      (sweep25 / (572958 / 10000)) + (1 - wing_taper_ratio) / (1 + wing_taper_ratio)) in  (* L258 *)
  let dCD3_dART := if leb (PCAR (mach - e Aircraft_Design_MACH) (AR * tan (sweep25 / (572958 / 10000)) + (1 -
      wing_taper_ratio) / (1 + wing_taper_ratio))) 0 then 0 else PCAR2 (mach - e Aircraft_Design_MACH) (AR * tan
      (sweep25 / (572958 / 10000)) + (1 - wing_taper_ratio) / (1 + wing_taper_ratio)) in  (* L259 *)
  let dCD4_dMach := if leb (BSUP mach (1 + base_area / fuse_area)) 0 then 0 else BSUP1 mach (1 + base_area /
      fuse_area) in  (* L260 *)
  let dCD4_dSOS := if leb (BSUP mach (1 + base_area / fuse_area)) 0 then 0 else BSUP2 mach (1 + base_area / fuse_area)
      in  (* L261 *)
  let dCD5_dMach := WFI1 mach (e Aircraft_Fuselage_DIAMETER_TO_WING_SPAN) in  (* L262 *)
  let dCD5_ddiam_to_wing_span_ratio := WFI2 mach (e Aircraft_Fuselage_DIAMETER_TO_WING_SPAN) in  (* L263 *)
  let dCd3_dMach := dCd3_dCD3 * dCD3_ddel_mach * ddel_mach_dMach in  (* L266 *)
  let dCd_ddesign_Mach := dCd3_dCD3 * dCD3_ddel_mach * ddel_mach_ddesign_Mach in  (* L269 *)
  let dCd3_dTC := 5 / 3 * CD3 * TC ** (2 / 3) * (1 + 1 / 10 * max_camber_70) in  (* L272 *)
  let dCd_dTC := dCd3_dTC in  (* L273 *)
  let dCd3_dmax_camber_70 := 1 / 10 * CD3 * TC ** (5 / 3) in  (* L276 *)
  let dCd_dmax_camber_70 := dCd3_dmax_camber_70 in  (* L277 *)
  let dART_dAR := tan (sweep25 / (572958 / 10000)) in  (* L280 *)
  let dCd_dAR := dCd3_dCD3 * dCD3_dART * dART_dAR in  (* L281 *)
  let dART_dwing_taper_ratio := - (1 - wing_taper_ratio) / (wing_taper_ratio + 1) ^ 2 - 1 / (wing_taper_ratio + 1) in  (* L283 *)
  let dART_dsweep25 := AR * (tan (sweep25 / (572958 / 10000)) ^ 2 + 1) / (572958 / 10000) in  (* L287 *)
  let dCd3_dsweep25 := dCd3_dCD3 * dCD3_dART * dART_dsweep25 in  (* L288 *)
  let dCd_ddiam_to_wing_span_ratio := 0 in  (* L290 *)
  let '(dCd_dMach, dCd_dfuse_area, dCd_dbase_area, dCd_dwing_area, dCd_dfuselage_len_to_diam_ratio,
      dCd_ddiam_to_wing_span_ratio, dCd_dwing_taper_ratio, dCd_dsweep25) :=  (* L292 *)
    if ltb 0 fuse_area then
      let dCd4_dMach := dCd4_dCD4 * dCD4_dMach in  (* L294 *)
      let dCd_dMach := dCd3_dMach + dCd4_dMach in  (* L295 *)
      let dSOS_dfuse_area := - base_area / fuse_area ^ 2 in  (* L298 *)
      let dCd4_dfuse_area := CD4 / (wing_area * fuselage_len_to_diam_ratio ^ 2) in  (* L299 *)
      let dCd_dfuse_area := dCd4_dfuse_area + dCd4_dCD4 * dCD4_dSOS * dSOS_dfuse_area in  (* L300 *)
      let dSOS_dbase_area := 1 / fuse_area in  (* L303 *)
      let dCd_dbase_area := dCd4_dCD4 * dCD4_dSOS * dSOS_dbase_area in  (* L304 *)
      let dCd_dwing_area := - CD4 * fuse_area / (wing_area * fuselage_len_to_diam_ratio) ^ 2 in  (* L307 *)
      let dCd_dfuselage_len_to_diam_ratio := - 2 * CD4 * fuse_area / (wing_area * fuselage_len_to_diam_ratio ^ 3) in  (* L310 *)
      let dCd_ddiam_to_wing_span_ratio := 0 in  (* L315 *)
      let dCd_dwing_taper_ratio := dCd3_dCD3 * dCD3_dART * dART_dwing_taper_ratio in  (* L320 *)
      let dCd_dsweep25 := dCd3_dsweep25 in  (* L323 *)
      let idx_mach := leb 1 mach in  (* L326 *)
      let '(dCd_dMach, dCd_dwing_taper_ratio, dCd_ddiam_to_wing_span_ratio, dCd_dsweep25) :=  (* L327 *)
        if leb 1 mach then
          let dCd_dMach := dCd_dMach + dCd5_dCD5 * dCD5_dMach in  (* L328 *)
          let dCd5_dwing_taper_ratio := CD5 / ((1 - wing_taper_ratio) ^ 2 * cos (sweep25 / (572958 / 10000))) in  (* L330 *)
          let dCd_dwing_taper_ratio := dCd_dwing_taper_ratio + dCd5_dwing_taper_ratio in  (* L333 *)
          let dCd_ddiam_to_wing_span_ratio := dCd5_dCD5 * dCD5_ddiam_to_wing_span_ratio in  (* L336 *)
          let dCd5_dsweep25 := CD5 * sin (sweep25 / (572958 / 10000)) / (572958 / 10000 * (1 - wing_taper_ratio) * cos
              (sweep25 / (572958 / 10000)) ^ 2) in  (* L338 *)
          let dCd_dsweep25 := dCd_dsweep25 + dCd5_dsweep25 in  (* L343 *)
          (dCd_dMach, dCd_dwing_taper_ratio, dCd_ddiam_to_wing_span_ratio, dCd_dsweep25)
        else
          (dCd_dMach, dCd_dwing_taper_ratio, dCd_ddiam_to_wing_span_ratio, dCd_dsweep25) in
      (dCd_dMach, dCd_dfuse_area, dCd_dbase_area, dCd_dwing_area, dCd_dfuselage_len_to_diam_ratio,
          dCd_ddiam_to_wing_span_ratio, dCd_dwing_taper_ratio, dCd_dsweep25)
    else
      let dCd_dMach := dCd3_dMach in  (* L346 *)
      let dCd_dfuse_area := 0 in  (* L347 *)
      let dCd_dbase_area := 0 in  (* L348 *)
      let dCd_dwing_area := 0 in  (* L349 *)
      let dCd_dfuselage_len_to_diam_ratio := 0 in  (* L350 *)
      let dCd_dwing_taper_ratio := dCd3_dCD3 * dCD3_dART * dART_dwing_taper_ratio in  (* L351 *)
      let dCd_dsweep25 := dCd3_dsweep25 in  (* L352 *)
      (dCd_dMach, dCd_dfuse_area, dCd_dbase_area, dCd_dwing_area, dCd_dfuselage_len_to_diam_ratio,
          dCd_ddiam_to_wing_span_ratio, dCd_dwing_taper_ratio, dCd_dsweep25) in
  let d_compress_drag_coeff__Atmosphere_MACH := dCd_dMach in  (* L354 *)
  let d_compress_drag_coeff__Design_MACH := dCd_ddesign_Mach in  (* L355 *)
  let d_compress_drag_coeff__Wing_THICKNESS_TO_CHORD := dCd_dTC in  (* L356 *)
  let d_compress_drag_coeff__Wing_MAX_CAMBER_AT_70_SEMISPAN := dCd_dmax_camber_70 in  (* L357 *)
  let d_compress_drag_coeff__Fuselage_CROSS_SECTION := dCd_dfuse_area in  (* L360 *)
  let d_compress_drag_coeff__Design_BASE_AREA := dCd_dbase_area in  (* L361 *)
  let d_compress_drag_coeff__Wing_AREA := dCd_dwing_area in  (* L362 *)
  let d_compress_drag_coeff__Fuselage_LENGTH_TO_DIAMETER := dCd_dfuselage_len_to_diam_ratio in  (* L363 *)
  let d_compress_drag_coeff__Wing_TAPER_RATIO := dCd_dwing_taper_ratio in  (* L366 *)
  let d_compress_drag_coeff__Wing_SWEEP := dCd_dsweep25 in  (* L367 *)
  let d_compress_drag_coeff__Wing_ASPECT_RATIO := dCd_dAR in  (* L368 *)
  let d_compress_drag_coeff__Fuselage_DIAMETER_TO_WING_SPAN := dCd_ddiam_to_wing_span_ratio in  (* L369 *)
  [(v_compress_drag_coeff, Dynamic_Atmosphere_MACH, d_compress_drag_coeff__Atmosphere_MACH);
   (v_compress_drag_coeff, Aircraft_Design_MACH, d_compress_drag_coeff__Design_MACH);
   (v_compress_drag_coeff, Aircraft_Wing_THICKNESS_TO_CHORD, d_compress_drag_coeff__Wing_THICKNESS_TO_CHORD);
   (v_compress_drag_coeff, Aircraft_Wing_MAX_CAMBER_AT_70_SEMISPAN,
       d_compress_drag_coeff__Wing_MAX_CAMBER_AT_70_SEMISPAN);
   (v_compress_drag_coeff, Aircraft_Fuselage_CROSS_SECTION, d_compress_drag_coeff__Fuselage_CROSS_SECTION);
   (v_compress_drag_coeff, Aircraft_Design_BASE_AREA, d_compress_drag_coeff__Design_BASE_AREA);
   (v_compress_drag_coeff, Aircraft_Wing_AREA, d_compress_drag_coeff__Wing_AREA);
   (v_compress_drag_coeff, Aircraft_Fuselage_LENGTH_TO_DIAMETER, d_compress_drag_coeff__Fuselage_LENGTH_TO_DIAMETER);
   (v_compress_drag_coeff, Aircraft_Wing_TAPER_RATIO, d_compress_drag_coeff__Wing_TAPER_RATIO);
   (v_compress_drag_coeff, Aircraft_Wing_SWEEP, d_compress_drag_coeff__Wing_SWEEP);
   (v_compress_drag_coeff, Aircraft_Wing_ASPECT_RATIO, d_compress_drag_coeff__Wing_ASPECT_RATIO);
   (v_compress_drag_coeff, Aircraft_Fuselage_DIAMETER_TO_WING_SPAN,
       d_compress_drag_coeff__Fuselage_DIAMETER_TO_WING_SPAN)].

(** Inputs, outputs and declared partials: /repo/aviary/subsystems/aerodynamics/flops_based/compressibility_drag.py L17-71 *)
Definition CompressSuper (PCAR : R -> R -> R) (PCAR1 : R -> R -> R) (PCAR2 : R -> R -> R) (BSUP : R -> R -> R) (BSUP1
    : R -> R -> R) (BSUP2 : R -> R -> R) (WFI : R -> R -> R) (WFI1 : R -> R -> R) (WFI2 : R -> R -> R) (op : options)
    : comp := {|
  c_ins := [Dynamic_Atmosphere_MACH;
            Aircraft_Design_MACH;
            Aircraft_Design_BASE_AREA;
            Aircraft_Wing_AREA;
            Aircraft_Wing_ASPECT_RATIO;
            Aircraft_Wing_MAX_CAMBER_AT_70_SEMISPAN;
            Aircraft_Wing_SWEEP;
            Aircraft_Wing_TAPER_RATIO;
            Aircraft_Wing_THICKNESS_TO_CHORD;
            Aircraft_Fuselage_CROSS_SECTION;
            Aircraft_Fuselage_DIAMETER_TO_WING_SPAN;
            Aircraft_Fuselage_LENGTH_TO_DIAMETER];
  c_outs := [v_compress_drag_coeff];
  c_decl := [(v_compress_drag_coeff, Dynamic_Atmosphere_MACH, 0);
             (v_compress_drag_coeff, Aircraft_Wing_THICKNESS_TO_CHORD, 0);
             (v_compress_drag_coeff, Aircraft_Wing_ASPECT_RATIO, 0);
             (v_compress_drag_coeff, Aircraft_Wing_SWEEP, 0);
             (v_compress_drag_coeff, Aircraft_Wing_MAX_CAMBER_AT_70_SEMISPAN, 0);
             (v_compress_drag_coeff, Aircraft_Fuselage_CROSS_SECTION, 0);
             (v_compress_drag_coeff, Aircraft_Wing_AREA, 0);
             (v_compress_drag_coeff, Aircraft_Fuselage_LENGTH_TO_DIAMETER, 0);
             (v_compress_drag_coeff, Aircraft_Wing_TAPER_RATIO, 0);
             (v_compress_drag_coeff, Aircraft_Fuselage_DIAMETER_TO_WING_SPAN, 0);
             (v_compress_drag_coeff, Aircraft_Design_BASE_AREA, 0);
             (v_compress_drag_coeff, Aircraft_Design_MACH, 0)];
  c_run := CompressSuper_compute PCAR PCAR1 PCAR2 BSUP BSUP1 BSUP2 WFI WFI1 WFI2 op; c_jac := CompressSuper_partials
      PCAR PCAR1 PCAR2 BSUP BSUP1 BSUP2 WFI WFI1 WFI2 op |}.

(** The inputs that are scalars, shared by all nodes. *)
Definition CompressSuper_shared : list string := [Aircraft_Design_MACH; Aircraft_Design_BASE_AREA; Aircraft_Wing_AREA;
    Aircraft_Wing_ASPECT_RATIO; Aircraft_Wing_MAX_CAMBER_AT_70_SEMISPAN; Aircraft_Wing_SWEEP;
    Aircraft_Wing_TAPER_RATIO; Aircraft_Wing_THICKNESS_TO_CHORD; Aircraft_Fuselage_CROSS_SECTION;
    Aircraft_Fuselage_DIAMETER_TO_WING_SPAN; Aircraft_Fuselage_LENGTH_TO_DIAMETER].

(** LiftDependentDrag.compute, /repo/aviary/subsystems/aerodynamics/flops_based/lift_dependent_drag.py L118-266 *)
Definition LiftDependentDrag_compute (FCDPT : R -> R -> R -> R) (FCDPT1 : R -> R -> R -> R) (FCDPT2 : R -> R -> R ->
    R) (FCDPT3 : R -> R -> R -> R) (op : options) (e : env) : list (string * R) :=
  let gamma := on op v_gamma in  (* L128 *)
  let mach := e Dynamic_Atmosphere_MACH in  (* L129 *)
  let lift := e Dynamic_Vehicle_LIFT in  (* L129 *)
  let P := e Dynamic_Atmosphere_STATIC_PRESSURE in  (* L129 *)
  let CLDES := e Aircraft_Design_LIFT_COEFFICIENT in  (* L129 *)
  let MDES := e Aircraft_Design_MACH in  (* L129 *)
  let Sref := e Aircraft_Wing_AREA in  (* L129 *)
  let AR := e Aircraft_Wing_ASPECT_RATIO in  (* L129 *)
  let CAM := e Aircraft_Wing_MAX_CAMBER_AT_70_SEMISPAN in  (* L129 *)
  let SW25 := e Aircraft_Wing_SWEEP in  (* L129 *)
  let TC := e Aircraft_Wing_THICKNESS_TO_CHORD in  (* L129 *)
  let CL := 2 * lift / (Sref * gamma * P * mach ^ 2) in  (* L137 *)
  let DELCL := CL - CLDES in  (* L139 *)
  let DELM := mach - MDES in  (* L140 *)
  let A := AR * TC ** (1 / 3) in  (* L141 *)
  let FCDP := FCDPT DELM DELCL A in  (* L143 *)
  let DCDP := FCDP * (1 + CAM / 10) * A / AR in  (* L257 *)
  let DCDP := if ltb DCDP 0 then 0 else DCDP in  (* L259 *)
  let o_pressure_drag_coeff := DCDP in  (* L266 *)
  [(v_pressure_drag_coeff, o_pressure_drag_coeff)].

(** LiftDependentDrag.compute_partials, /repo/aviary/subsystems/aerodynamics/flops_based/lift_dependent_drag.py L268-347 *)
Definition LiftDependentDrag_partials (FCDPT : R -> R -> R -> R) (FCDPT1 : R -> R -> R -> R) (FCDPT2 : R -> R -> R ->
    R) (FCDPT3 : R -> R -> R -> R) (op : options) (e : env) : list (string * string * R) :=
  let gamma := on op v_gamma in  (* L277 *)
  let mach := e Dynamic_Atmosphere_MACH in  (* L278 *)
  let lift := e Dynamic_Vehicle_LIFT in  (* L278 *)
  let P := e Dynamic_Atmosphere_STATIC_PRESSURE in  (* L278 *)
  let CLDES := e Aircraft_Design_LIFT_COEFFICIENT in  (* L278 *)
  let MDES := e Aircraft_Design_MACH in  (* L278 *)
  let Sref := e Aircraft_Wing_AREA in  (* L278 *)
  let AR := e Aircraft_Wing_ASPECT_RATIO in  (* L278 *)
  let CAM := e Aircraft_Wing_MAX_CAMBER_AT_70_SEMISPAN in  (* L278 *)
  let SW25 := e Aircraft_Wing_SWEEP in  (* L278 *)
  let TC := e Aircraft_Wing_THICKNESS_TO_CHORD in  (* L278 *)
  let ddelCL_dL := 2 / (Sref * gamma * P * mach ^ 2) in  (* L280 *)
  let ddelCL_dP := - 2 * lift / (Sref * gamma * P * P * mach ^ 2) in  (* L281 *)
  let ddelCL_dSref := - 2 * lift / (Sref * Sref * gamma * P * mach ^ 2) in  (* L282 *)
  let ddelCL_dmach := - 4 * lift / (Sref * gamma * P * mach ^ 3) in  (* L283 *)
  let FCDP := FCDPT (mach - MDES) (2 * lift / (Sref * gamma * P * mach ^ 2) - CLDES) (AR * TC ** (1 / 3)) in  (* L285 *)
  let dFCDP_dA := FCDPT3 (mach - MDES) (2 * lift / (Sref * gamma * P * mach ^ 2) - CLDES) (AR * TC ** (1 / 3)) in  (* L286 *)
  let dFCDP_dDELM := FCDPT1 (mach - MDES) (2 * lift / (Sref * gamma * P * mach ^ 2) - CLDES) (AR * TC ** (1 / 3)) in  (* L287 *)
  let dFCDP_dDELCL := FCDPT2 (mach - MDES) (2 * lift / (Sref * gamma * P * mach ^ 2) - CLDES) (AR * TC ** (1 / 3)) in  (* L288 *)
  let dA_dAR := TC ** (1 / 3) in  (* L291 *)
  let dA_dTC := 1 / 3 * AR * TC ** (- 2 / 3) in  (* L292 *)
  let dA_dCAM := 0 in  (* L293 *)
  let dA_dSW25 := 0 in  (* L294 *)
  let dDCDP_dFCDP := (1 + CAM / 10) * TC ** (1 / 3) in  (* L296 *)
  let ddelCL_dL := 2 / (Sref * gamma * P * mach ^ 2) in  (* L298 *)
  let dCD_dmach := dDCDP_dFCDP * dFCDP_dDELM in  (* L301 *)
  let dCD_dCL := dDCDP_dFCDP * dFCDP_dDELCL in  (* L304 *)
  let dFCDP_dAR := dFCDP_dA * dA_dAR in  (* L307 *)
  let dCD_dAR := dDCDP_dFCDP * dFCDP_dAR in  (* L308 *)
  let dDCDP_dTC := 1 / 3 * FCDP * (1 + CAM / 10) * TC ** (- 2 / 3) in  (* L311 *)
  let dFCDP_dTC := dFCDP_dA * dA_dTC in  (* L312 *)
  let dCD_dTC := dDCDP_dFCDP * dFCDP_dTC + dDCDP_dTC in  (* L313 *)
  let dDCDP_dCAM := FCDP / 10 * TC ** (1 / 3) in  (* L316 *)
  let dFCDP_dCAM := dFCDP_dA * dA_dCAM in  (* L317 *)
  let dCD_dCAM := dDCDP_dFCDP * dFCDP_dCAM + dDCDP_dCAM in  (* L318 *)
  let dFCDP_dSW25 := dFCDP_dA * dA_dSW25 in  (* L321 *)
  let dCD_dSW25 := dDCDP_dFCDP * dFCDP_dSW25 in  (* L322 *)
  let d_pressure_drag_coeff__Atmosphere_MACH := dCD_dmach + dCD_dCL * ddelCL_dmach in  (* L324 *)
  let d_pressure_drag_coeff__Vehicle_LIFT := dCD_dCL * ddelCL_dL in  (* L327 *)
  let d_pressure_drag_coeff__Atmosphere_STATIC_PRESSURE := dCD_dCL * ddelCL_dP in  (* L328 *)
  let d_pressure_drag_coeff__Wing_AREA := dCD_dCL * ddelCL_dSref in  (* L329 *)
  let d_pressure_drag_coeff__Wing_ASPECT_RATIO := dCD_dAR in  (* L330 *)
  let d_pressure_drag_coeff__Wing_THICKNESS_TO_CHORD := dCD_dTC in  (* L331 *)
  let d_pressure_drag_coeff__Wing_MAX_CAMBER_AT_70_SEMISPAN := dCD_dCAM in  (* L332 *)
  let d_pressure_drag_coeff__Wing_SWEEP := dCD_dSW25 in  (* L333 *)
  let d_pressure_drag_coeff__Design_LIFT_COEFFICIENT := - dCD_dCL in  (* L334 *)
  let d_pressure_drag_coeff__Design_MACH := - dCD_dmach in  (* L335 *)
  let '(d_pressure_drag_coeff__Atmosphere_MACH, d_pressure_drag_coeff__Vehicle_LIFT,
      d_pressure_drag_coeff__Atmosphere_STATIC_PRESSURE, d_pressure_drag_coeff__Wing_AREA,
      d_pressure_drag_coeff__Wing_ASPECT_RATIO, d_pressure_drag_coeff__Wing_THICKNESS_TO_CHORD,
      d_pressure_drag_coeff__Wing_MAX_CAMBER_AT_70_SEMISPAN, d_pressure_drag_coeff__Wing_SWEEP,
      d_pressure_drag_coeff__Design_LIFT_COEFFICIENT, d_pressure_drag_coeff__Design_MACH) :=  (* L337 *)
    if ltb (FCDP * (1 + CAM / 10) * (AR * TC ** (1 / 3)) / AR) 0 then
      let d_pressure_drag_coeff__Atmosphere_MACH := 0 in  (* L338 *)
      let d_pressure_drag_coeff__Vehicle_LIFT := 0 in  (* L339 *)
      let d_pressure_drag_coeff__Atmosphere_STATIC_PRESSURE := 0 in  (* L340 *)
      let d_pressure_drag_coeff__Wing_AREA := 0 in  (* L341 *)
      let d_pressure_drag_coeff__Wing_ASPECT_RATIO := 0 in  (* L342 *)
      let d_pressure_drag_coeff__Wing_THICKNESS_TO_CHORD := 0 in  (* L343 *)
      let d_pressure_drag_coeff__Wing_MAX_CAMBER_AT_70_SEMISPAN := 0 in  (* L344 *)
      let d_pressure_drag_coeff__Wing_SWEEP := 0 in  (* L345 *)
      let d_pressure_drag_coeff__Design_LIFT_COEFFICIENT := 0 in  (* L346 *)
      let d_pressure_drag_coeff__Design_MACH := 0 in  (* L347 *)
      (d_pressure_drag_coeff__Atmosphere_MACH, d_pressure_drag_coeff__Vehicle_LIFT,
          d_pressure_drag_coeff__Atmosphere_STATIC_PRESSURE, d_pressure_drag_coeff__Wing_AREA,
          d_pressure_drag_coeff__Wing_ASPECT_RATIO, d_pressure_drag_coeff__Wing_THICKNESS_TO_CHORD,
          d_pressure_drag_coeff__Wing_MAX_CAMBER_AT_70_SEMISPAN, d_pressure_drag_coeff__Wing_SWEEP,
          d_pressure_drag_coeff__Design_LIFT_COEFFICIENT, d_pressure_drag_coeff__Design_MACH)
    else
      (d_pressure_drag_coeff__Atmosphere_MACH, d_pressure_drag_coeff__Vehicle_LIFT,
          d_pressure_drag_coeff__Atmosphere_STATIC_PRESSURE, d_pressure_drag_coeff__Wing_AREA,
          d_pressure_drag_coeff__Wing_ASPECT_RATIO, d_pressure_drag_coeff__Wing_THICKNESS_TO_CHORD,
          d_pressure_drag_coeff__Wing_MAX_CAMBER_AT_70_SEMISPAN, d_pressure_drag_coeff__Wing_SWEEP,
          d_pressure_drag_coeff__Design_LIFT_COEFFICIENT, d_pressure_drag_coeff__Design_MACH) in
  [(v_pressure_drag_coeff, Dynamic_Atmosphere_MACH, d_pressure_drag_coeff__Atmosphere_MACH);
   (v_pressure_drag_coeff, Dynamic_Vehicle_LIFT, d_pressure_drag_coeff__Vehicle_LIFT);
   (v_pressure_drag_coeff, Dynamic_Atmosphere_STATIC_PRESSURE, d_pressure_drag_coeff__Atmosphere_STATIC_PRESSURE);
   (v_pressure_drag_coeff, Aircraft_Wing_AREA, d_pressure_drag_coeff__Wing_AREA);
   (v_pressure_drag_coeff, Aircraft_Wing_ASPECT_RATIO, d_pressure_drag_coeff__Wing_ASPECT_RATIO);
   (v_pressure_drag_coeff, Aircraft_Wing_THICKNESS_TO_CHORD, d_pressure_drag_coeff__Wing_THICKNESS_TO_CHORD);
   (v_pressure_drag_coeff, Aircraft_Wing_MAX_CAMBER_AT_70_SEMISPAN,
       d_pressure_drag_coeff__Wing_MAX_CAMBER_AT_70_SEMISPAN);
   (v_pressure_drag_coeff, Aircraft_Wing_SWEEP, d_pressure_drag_coeff__Wing_SWEEP);
   (v_pressure_drag_coeff, Aircraft_Design_LIFT_COEFFICIENT, d_pressure_drag_coeff__Design_LIFT_COEFFICIENT);
   (v_pressure_drag_coeff, Aircraft_Design_MACH, d_pressure_drag_coeff__Design_MACH)].

(** Inputs, outputs and declared partials: /repo/aviary/subsystems/aerodynamics/flops_based/lift_dependent_drag.py L19-70 *)
Definition LiftDependentDrag (FCDPT : R -> R -> R -> R) (FCDPT1 : R -> R -> R -> R) (FCDPT2 : R -> R -> R -> R)
    (FCDPT3 : R -> R -> R -> R) (op : options) : comp := {|
  c_ins := [Dynamic_Atmosphere_MACH;
            Dynamic_Vehicle_LIFT;
            Dynamic_Atmosphere_STATIC_PRESSURE;
            Aircraft_Design_LIFT_COEFFICIENT;
            Aircraft_Design_MACH;
            Aircraft_Wing_AREA;
            Aircraft_Wing_ASPECT_RATIO;
            Aircraft_Wing_MAX_CAMBER_AT_70_SEMISPAN;
            Aircraft_Wing_SWEEP;
            Aircraft_Wing_THICKNESS_TO_CHORD];
  c_outs := [v_pressure_drag_coeff];
  c_decl := [(v_pressure_drag_coeff, Dynamic_Atmosphere_MACH, 0);
             (v_pressure_drag_coeff, Dynamic_Vehicle_LIFT, 0);
             (v_pressure_drag_coeff, Dynamic_Atmosphere_STATIC_PRESSURE, 0);
             (v_pressure_drag_coeff, Aircraft_Design_LIFT_COEFFICIENT, 0);
             (v_pressure_drag_coeff, Aircraft_Design_MACH, 0);
             (v_pressure_drag_coeff, Aircraft_Wing_AREA, 0);
             (v_pressure_drag_coeff, Aircraft_Wing_ASPECT_RATIO, 0);
             (v_pressure_drag_coeff, Aircraft_Wing_MAX_CAMBER_AT_70_SEMISPAN, 0);
             (v_pressure_drag_coeff, Aircraft_Wing_SWEEP, 0);
             (v_pressure_drag_coeff, Aircraft_Wing_THICKNESS_TO_CHORD, 0)];
  c_run := LiftDependentDrag_compute FCDPT FCDPT1 FCDPT2 FCDPT3 op; c_jac := LiftDependentDrag_partials FCDPT FCDPT1
      FCDPT2 FCDPT3 op |}.

(** The inputs that are scalars, shared by all nodes. *)
Definition LiftDependentDrag_shared : list string := [Aircraft_Design_LIFT_COEFFICIENT; Aircraft_Design_MACH;
    Aircraft_Wing_AREA; Aircraft_Wing_ASPECT_RATIO; Aircraft_Wing_MAX_CAMBER_AT_70_SEMISPAN; Aircraft_Wing_SWEEP;
    Aircraft_Wing_THICKNESS_TO_CHORD].

(** SkinFriction.compute, /repo/aviary/subsystems/aerodynamics/flops_based/skin_friction.py L157-199 *)
Definition SkinFriction_compute (op : options) (e : env) : list (string * R) :=
  let T := e Dynamic_Atmosphere_TEMPERATURE in  (* L158 *)
  let pressure := e Dynamic_Atmosphere_STATIC_PRESSURE in  (* L158 *)
  let mach := e Dynamic_Atmosphere_MACH in  (* L158 *)
  let length_ := e v_characteristic_lengths in  (* L158 *)
  let cf := e v_cf_iter in  (* L159 *)
  let wall_temp := e v_wall_temp in  (* L160 *)
  let Pratio := pressure / (146959 / 10000 * 144) in  (* L163 *)
  let kelvin := T / (18 / 10) in  (* L164 *)
  let RE := 1479301000 * Pratio * (kelvin + 1104 / 10) / kelvin ^ 2 in  (* L165 *)
  let suth_const := T + 19872 / 100 in  (* L168 *)
  let E := 8 / 10 in  (* L169 *)
  let combined_const := 4593153 / 1000000000000 * E * suth_const / (RE * mach * T ** (15 / 10)) in  (* L172 *)
  let reynolds_num := RE * mach * length_ in  (* L175 *)
  let o_Re := e v_Re - reynolds_num in  (* L176 *)
  let wall_temp_ratio := 1 + 45 / 100 * (wall_temp * (1 / T) - 1) in  (* L179 *)
  let fact := 35 / 1000 * mach * mach in  (* L180 *)
  let wall_temp_ratio := wall_temp_ratio + fact in  (* L182 *)
  let CFL := cf / (1 + 359 / 100 * sqrt cf * wall_temp_ratio) in  (* L184 *)
  let prod := combined_const * wall_temp ^ 3 in  (* L186 *)
  let o_wall_temp := (on op v_TAW / (1 + prod / CFL) + wall_temp) * (5 / 10) - wall_temp in  (* L187 *)
  let RP := reynolds_num * (wall_temp_ratio * T + 19872 / 100) / (suth_const * wall_temp_ratio ** (25 / 10)) in  (* L189 *)
  let o_cf_iter := (242 / 1000 * (2302585 / 1000000) / ln (RP * cf)) ^ 2 - cf in  (* L195 *)
  let o_skin_friction_coeff := e v_skin_friction_coeff - e v_cf_iter / wall_temp_ratio in  (* L197 *)
  [(v_Re, o_Re);
   (v_wall_temp, o_wall_temp);
   (v_cf_iter, o_cf_iter);
   (v_skin_friction_coeff, o_skin_friction_coeff)].

(** SkinFriction.compute_partials, /repo/aviary/subsystems/aerodynamics/flops_based/skin_friction.py L201-311 *)
Definition SkinFriction_partials (op : options) (e : env) : list (string * string * R) :=
  let T := e Dynamic_Atmosphere_TEMPERATURE in  (* L205 *)
  let pressure := e Dynamic_Atmosphere_STATIC_PRESSURE in  (* L205 *)
  let mach := e Dynamic_Atmosphere_MACH in  (* L205 *)
  let length_ := e v_characteristic_lengths in  (* L205 *)
  let cf := e v_cf_iter in  (* L206 *)
  let wall_temp := e v_wall_temp in  (* L207 *)
  let Pratio := pressure / (146959 / 10000 * 144) in  (* L209 *)
  let kelvin := T / (18 / 10) in  (* L210 *)
  let RE := 1479301000 * Pratio * (kelvin + 1104 / 10) / kelvin ^ 2 in  (* L211 *)
  let dRE_dp := 1479301000 * (kelvin + 1104 / 10) / (146959 / 10000 * 144 * kelvin ^ 2) in  (* L213 *)
  let dRE_dT := - 1479301000 / (18 / 10) * (Pratio * (1 / kelvin ^ 2 + 2 * (1104 / 10) / kelvin ^ 3)) in  (* L214 *)
  let reynolds_num := RE * mach * length_ in  (* L216 *)
  let dreyn_dp := dRE_dp * mach * length_ in  (* L217 *)
  let dreyn_dT := dRE_dT * mach * length_ in  (* L218 *)
  let dreyn_dmach := RE * length_ in  (* L219 *)
  let dreyn_dlen := RE * mach in  (* L220 *)
  let d_Re__Atmosphere_STATIC_PRESSURE := - dreyn_dp in  (* L222 *)
  let d_Re__Atmosphere_TEMPERATURE := - dreyn_dT in  (* L223 *)
  let d_Re__Atmosphere_MACH := - dreyn_dmach in  (* L224 *)
  let d_Re__characteristic_lengths := - dreyn_dlen in  (* L225 *)
  let suth_const := T + 19872 / 100 in  (* L227 *)
  let E := 8 / 10 in  (* L228 *)
  let combined_const := 4593153 / 1000000000000 * E * suth_const / (RE * mach * T ** (15 / 10)) in  (* L229 *)
  let dcomb_dRE := - 4593153 / 1000000000000 * E * suth_const / (RE * RE * mach * T ** (15 / 10)) in  (* L230 *)
  let dcomb_dmach := - 4593153 / 1000000000000 * E * suth_const / (RE * mach * mach * T ** (15 / 10)) in  (* L231 *)
  let dcomb_dT := 4593153 / 1000000000000 * E * (1 / T ** (15 / 10) - 15 / 10 * suth_const / T ** (25 / 10)) / (RE *
      mach) + dcomb_dRE * dRE_dT in  (* L232 *)
  let dcomb_dp := dcomb_dRE * dRE_dp in  (* L236 *)
  let wall_temp_ratio := 1 + 45 / 100 * (wall_temp * (1 / T) - 1) in  (* L238 *)
  let fact := 35 / 1000 * mach * mach in  (* L239 *)
  let wall_temp_ratio := wall_temp_ratio + fact in  (* L241 *)
  let dwtr_dmach := 7 / 100 * mach in  (* L242 *)
  let dwtr_dT := - 45 / 100 * (wall_temp * (1 / T ^ 2)) in  (* L243 *)
  let dwtr_dwt := 45 / 100 / T in  (* L244 *)
  let den := 1 + 359 / 100 * sqrt cf * wall_temp_ratio in  (* L246 *)
  let CFL := cf / den in  (* L247 *)
  let dCFL_dcf := 1 / den - cf * (359 / 100) * wall_temp_ratio * (5 / 10) / (sqrt cf * den ^ 2) in  (* L248 *)
  let dCFL_dwtr := - cf * (359 / 100) * sqrt cf / den ^ 2 in  (* L249 *)
  let dCFL_dmach := dCFL_dwtr * dwtr_dmach in  (* L250 *)
  let dCFL_dT := dCFL_dwtr * dwtr_dT in  (* L251 *)
  let dCFL_dwt := dCFL_dwtr * dwtr_dwt in  (* L252 *)
  let term := combined_const * wall_temp ^ 3 in  (* L254 *)
  let den := 1 + term / CFL in  (* L255 *)
  let dreswt_dcomb := - 5 / 10 * on op v_TAW * wall_temp ^ 3 / (CFL * den ^ 2) in  (* L256 *)
  let dreswt_dCFL := 5 / 10 * on op v_TAW * term / (CFL * den) ^ 2 in  (* L257 *)
  let dreswt_dwt := - 5 / 10 - 15 / 10 * on op v_TAW * (combined_const * wall_temp ^ 2) / (CFL * den ^ 2) in  (* L258 *)
  let d_wall_temp__Atmosphere_STATIC_PRESSURE := dreswt_dcomb * dcomb_dp in  (* L262 *)
  let d_wall_temp__Atmosphere_TEMPERATURE := dreswt_dcomb * dcomb_dT + dreswt_dCFL * dCFL_dT in  (* L265 *)
  let d_wall_temp__Atmosphere_MACH := dreswt_dcomb * dcomb_dmach + dreswt_dCFL * dCFL_dmach in  (* L268 *)
  let d_wall_temp__wall_temp := dreswt_dCFL * dCFL_dwt + dreswt_dwt in  (* L271 *)
  let d_wall_temp__cf_iter := dreswt_dCFL * dCFL_dcf in  (* L272 *)
  let den := 1 / (suth_const * wall_temp_ratio ** (25 / 10)) in  (* L274 *)
  let num := wall_temp_ratio * T + 19872 / 100 in  (* L275 *)
  let RP := reynolds_num * num * den in  (* L276 *)
  let dRP_dreyn := num * den in  (* L277 *)
  let term := T * (1 * den) in  (* L278 *)
  let dRP_dwtr := reynolds_num * (term - num * (25 / 10) * (suth_const * wall_temp_ratio ** (15 / 10)) * den ^ 2) in  (* L279 *)
  let dRP_dT := reynolds_num * (wall_temp_ratio * den - num * wall_temp_ratio ** (25 / 10) * den ^ 2) in  (* L282 *)
  let dRP_dp := dRP_dreyn * dreyn_dp in  (* L283 *)
  let dRP_dT := dRP_dreyn * dreyn_dT + dRP_dwtr * dwtr_dT + dRP_dT in  (* L284 *)
  let dRP_dmach := dRP_dreyn * dreyn_dmach + dRP_dwtr * dwtr_dmach in  (* L285 *)
  let dRP_dlen := dRP_dreyn * dreyn_dlen in  (* L286 *)
  let dRP_dwt := dRP_dwtr * dwtr_dwt in  (* L287 *)
  let fact := (242 / 1000 * (2302585 / 1000000)) ^ 2 in  (* L289 *)
  let drescf_dRP := - 2 * fact / (RP * ln (RP * cf) ^ 3) in  (* L290 *)
  let drescf_dcf := - 2 * fact / (cf * ln (RP * cf) ^ 3) - 1 in  (* L291 *)
  let d_cf_iter__Atmosphere_STATIC_PRESSURE := drescf_dRP * dRP_dp in  (* L293 *)
  let d_cf_iter__Atmosphere_TEMPERATURE := drescf_dRP * dRP_dT in  (* L294 *)
  let d_cf_iter__Atmosphere_MACH := drescf_dRP * dRP_dmach in  (* L295 *)
  let d_cf_iter__characteristic_lengths := drescf_dRP * dRP_dlen in  (* L296 *)
  let d_cf_iter__wall_temp := drescf_dRP * dRP_dwt in  (* L297 *)
  let d_cf_iter__cf_iter := drescf_dcf in  (* L298 *)
  let dskf_dwtr := e v_cf_iter / wall_temp_ratio ^ 2 in  (* L300 *)
  let d_skin_friction_coeff__Atmosphere_TEMPERATURE := dskf_dwtr * dwtr_dT in  (* L302 *)
  let d_skin_friction_coeff__Atmosphere_MACH := dskf_dwtr * dwtr_dmach in  (* L305 *)
  let d_skin_friction_coeff__wall_temp := dskf_dwtr * dwtr_dwt in  (* L308 *)
  let d_skin_friction_coeff__cf_iter := - 1 / wall_temp_ratio in  (* L311 *)
  [(v_Re, Dynamic_Atmosphere_STATIC_PRESSURE, d_Re__Atmosphere_STATIC_PRESSURE);
   (v_Re, Dynamic_Atmosphere_TEMPERATURE, d_Re__Atmosphere_TEMPERATURE);
   (v_Re, Dynamic_Atmosphere_MACH, d_Re__Atmosphere_MACH);
   (v_Re, v_characteristic_lengths, d_Re__characteristic_lengths);
   (v_wall_temp, Dynamic_Atmosphere_STATIC_PRESSURE, d_wall_temp__Atmosphere_STATIC_PRESSURE);
   (v_wall_temp, Dynamic_Atmosphere_TEMPERATURE, d_wall_temp__Atmosphere_TEMPERATURE);
   (v_wall_temp, Dynamic_Atmosphere_MACH, d_wall_temp__Atmosphere_MACH);
   (v_wall_temp, v_wall_temp, d_wall_temp__wall_temp);
   (v_wall_temp, v_cf_iter, d_wall_temp__cf_iter);
   (v_cf_iter, Dynamic_Atmosphere_STATIC_PRESSURE, d_cf_iter__Atmosphere_STATIC_PRESSURE);
   (v_cf_iter, Dynamic_Atmosphere_TEMPERATURE, d_cf_iter__Atmosphere_TEMPERATURE);
   (v_cf_iter, Dynamic_Atmosphere_MACH, d_cf_iter__Atmosphere_MACH);
   (v_cf_iter, v_characteristic_lengths, d_cf_iter__characteristic_lengths);
   (v_cf_iter, v_wall_temp, d_cf_iter__wall_temp);
   (v_cf_iter, v_cf_iter, d_cf_iter__cf_iter);
   (v_skin_friction_coeff, Dynamic_Atmosphere_TEMPERATURE, d_skin_friction_coeff__Atmosphere_TEMPERATURE);
   (v_skin_friction_coeff, Dynamic_Atmosphere_MACH, d_skin_friction_coeff__Atmosphere_MACH);
   (v_skin_friction_coeff, v_wall_temp, d_skin_friction_coeff__wall_temp);
   (v_skin_friction_coeff, v_cf_iter, d_skin_friction_coeff__cf_iter)].

(** Inputs, outputs and declared partials: /repo/aviary/subsystems/aerodynamics/flops_based/skin_friction.py L46-132 *)
Definition SkinFriction (op : options) : comp := {|
  c_ins := [Dynamic_Atmosphere_TEMPERATURE;
            Dynamic_Atmosphere_STATIC_PRESSURE;
            Dynamic_Atmosphere_MACH;
            v_characteristic_lengths;
            v_cf_iter;
            v_skin_friction_coeff;
            v_Re;
            v_wall_temp];
  c_outs := [v_cf_iter;
             v_skin_friction_coeff;
             v_Re;
             v_wall_temp];
  c_decl := [(v_Re, v_Re, 1);
             (v_skin_friction_coeff, v_skin_friction_coeff, 1);
             (v_cf_iter, v_wall_temp, 0);
             (v_cf_iter, v_cf_iter, 0);
             (v_wall_temp, v_wall_temp, 0);
             (v_wall_temp, v_cf_iter, 0);
             (v_skin_friction_coeff, v_wall_temp, 0);
             (v_skin_friction_coeff, v_cf_iter, 0);
             (v_cf_iter, Dynamic_Atmosphere_TEMPERATURE, 0);
             (v_cf_iter, Dynamic_Atmosphere_STATIC_PRESSURE, 0);
             (v_cf_iter, Dynamic_Atmosphere_MACH, 0);
             (v_wall_temp, Dynamic_Atmosphere_TEMPERATURE, 0);
             (v_wall_temp, Dynamic_Atmosphere_STATIC_PRESSURE, 0);
             (v_wall_temp, Dynamic_Atmosphere_MACH, 0);
             (v_Re, Dynamic_Atmosphere_TEMPERATURE, 0);
             (v_Re, Dynamic_Atmosphere_STATIC_PRESSURE, 0);
             (v_Re, Dynamic_Atmosphere_MACH, 0);
             (v_skin_friction_coeff, Dynamic_Atmosphere_TEMPERATURE, 0);
             (v_skin_friction_coeff, Dynamic_Atmosphere_STATIC_PRESSURE, 0);
             (v_skin_friction_coeff, Dynamic_Atmosphere_MACH, 0);
             (v_Re, v_characteristic_lengths, 0);
             (v_cf_iter, v_characteristic_lengths, 0)];
  c_run := SkinFriction_compute op; c_jac := SkinFriction_partials op |}.

(** The inputs that are scalars, shared by all nodes. *)
Definition SkinFriction_shared : list string := [v_characteristic_lengths].

(** SkinFrictionDrag.compute, /repo/aviary/subsystems/aerodynamics/flops_based/skin_friction_drag.py L127-190 *)
Definition SkinFrictionTerm_compute (op : options) (e : env) : list (string * R) :=
  let cf := e v_skin_friction_coeff in  (* L130 *)
  let Re := e v_Re in  (* L131 *)
  let fineness := e v_fineness_ratios in  (* L133 *)
  let wetted_area := e v_wetted_areas in  (* L134 *)
  let lam_up := e v_laminar_fractions_upper in  (* L135 *)
  let lam_low := e v_laminar_fractions_lower in  (* L136 *)
  let mission_wing_area := e Aircraft_Wing_AREA in  (* L137 *)
  let laminar_flow := ob op v_laminar in  (* L139 *)
  let cf :=  (* L141 *)
    if laminar_flow then
      let laminar_upper := (* _calc_laminar_flow, L297-298 *) let lam := lam_up in lam * (64164 / 10000000 + lam *
          (48087 / 1000000000 - 12234 / 100000000000 * lam)) in  (* L142 *)
      let laminar_lower := (* _calc_laminar_flow, L297-298 *) let lam := lam_low in lam * (64164 / 10000000 + lam *
          (48087 / 1000000000 - 12234 / 100000000000 * lam)) in  (* L143 *)
      let cf := cf - 5 / 10 * (cf - 1328 / 1000 / sqrt Re) * (laminar_lower + laminar_upper) in  (* L144 *)
      cf
    else
      cf in
  let form_factor := 0 in  (* L146 *)
  let idx_body := ltb (5 / 10) fineness in  (* L151 *)
  let fine := fineness in  (* L152 *)
  let form_factor := if idx_body then 434255 / 100000 + fine * (- 114281 / 100000 + fine * (171203 / 1000000 + fine *
      (- 138334 / 10000000 + fine * (621712 / 1000000000 + fine * (137442 / 1000000000000 * fine + - 145532 /
      10000000000))))) else form_factor in  (* L158 *)
  let idx_max := leb 20 fineness in  (* L162 *)
  let form_factor := if idx_max then 1 else form_factor in  (* L163 *)
  let idx_surf := leb fineness (5 / 10) in  (* L166 *)
  let fine := fineness in  (* L167 *)
  let airfoil := on op Aircraft_Wing_AIRFOIL_TECHNOLOGY in  (* L168 *)
  let FF1 := 1 + fine * (294206 / 100000 + fine * (716974 / 100000 + fine * (488876 / 10000 + fine * (- 140302 / 100 +
      fine * (859876 / 100 + fine * (- 158343 / 10)))))) in  (* L170 *)
  let FF2 := 1 + fine * (4275 / 1000) in  (* L173 *)
  let form_factor := if idx_surf then FF1 * (2 - airfoil) + FF2 * (airfoil - 1) else form_factor in  (* L175 *)
  let CDF := wetted_area * cf * form_factor * (1 / mission_wing_area) in  (* L177 *)
  let CDF := CDF * (1 + e Aircraft_Design_PERCENT_EXCRESCENCE_DRAG) in  (* L188 *)
  let o_skin_friction_drag_coeff := CDF in  (* L190 *)
  [(v_skin_friction_drag_coeff, o_skin_friction_drag_coeff)].

(** SkinFrictionDrag.compute_partials, /repo/aviary/subsystems/aerodynamics/flops_based/skin_friction_drag.py L192-294 *)
Definition SkinFrictionTerm_partials (op : options) (e : env) : list (string * string * R) :=
  let cf := e v_skin_friction_coeff in  (* L196 *)
  let Re := e v_Re in  (* L197 *)
  let fineness := e v_fineness_ratios in  (* L199 *)
  let wetted_area := e v_wetted_areas in  (* L200 *)
  let lam_up := e v_laminar_fractions_upper in  (* L201 *)
  let lam_low := e v_laminar_fractions_lower in  (* L202 *)
  let mission_wing_area := e Aircraft_Wing_AREA in  (* L203 *)
  let laminar_flow := ob op v_laminar in  (* L205 *)
  let den := 1 / sqrt Re in  (* L207 *)
  let lam_lam := - 5 / 10 * (cf - 1328 / 1000 * den) in  (* L208 *)
  let '(lam_cf, lam_Re, cf) :=  (* L209 *)
    if laminar_flow then
      let laminar_upper := (* _calc_laminar_flow, L297-298 *) let lam := lam_up in lam * (64164 / 10000000 + lam *
          (48087 / 1000000000 - 12234 / 100000000000 * lam)) in  (* L210 *)
      let laminar_lower := (* _calc_laminar_flow, L297-298 *) let lam := lam_low in lam * (64164 / 10000000 + lam *
          (48087 / 1000000000 - 12234 / 100000000000 * lam)) in  (* L211 *)
      let lam_sum := laminar_lower + laminar_upper in  (* L212 *)
      let lam_cf := 1 - 5 / 10 * lam_sum in  (* L213 *)
      let lam_Re := - 25 / 100 * (1328 / 1000) / Re ** (15 / 10) * lam_sum in  (* L214 *)
      let cf := cf - 5 / 10 * (cf - 1328 / 1000 * den) * lam_sum in  (* L216 *)
      (lam_cf, lam_Re, cf)
    else
      (0, 0, cf) in
  let form_factor := 0 in  (* L218 *)
  let dform_dfine := 0 in  (* L219 *)
  let idx_body := ltb (5 / 10) fineness in  (* L224 *)
  let fine := fineness in  (* L225 *)
  let form_factor := if idx_body then 434255 / 100000 + fine * (- 114281 / 100000 + fine * (171203 / 1000000 + fine *
      (- 138334 / 10000000 + fine * (621712 / 1000000000 + fine * (137442 / 1000000000000 * fine + - 145532 /
      10000000000))))) else form_factor in  (* L226 *)
  let dform_dfine := if idx_body then - 114281 / 100000 + fine * (2 * (171203 / 1000000) + fine * (3 * (- 138334 /
      10000000) + fine * (4 * (621712 / 1000000000) + fine * (6 * (137442 / 1000000000000) * fine + 5 * (- 145532 /
      10000000000))))) else dform_dfine in  (* L229 *)
  let idx_max := leb 20 fineness in  (* L235 *)
  let form_factor := if idx_max then 1 else form_factor in  (* L236 *)
  let dform_dfine := if idx_max then 0 else dform_dfine in  (* L237 *)
  let idx_surf := leb fineness (5 / 10) in  (* L240 *)
  let fine := fineness in  (* L241 *)
  let airfoil := on op Aircraft_Wing_AIRFOIL_TECHNOLOGY in  (* L243 *)
  let FF1 := 1 + fine * (294206 / 100000 + fine * (716974 / 100000 + fine * (488876 / 10000 + fine * (- 140302 / 100 +
      fine * (859876 / 100 + fine * (- 158343 / 10)))))) in  (* L245 *)
  let FF2 := 1 + fine * (4275 / 1000) in  (* L248 *)
  let dFF1 := 294206 / 100000 + fine * (2 * (716974 / 100000) + fine * (3 * (488876 / 10000) + fine * (4 * (- 140302 /
      100) + fine * (5 * (859876 / 100) + fine * 6 * (- 158343 / 10))))) in  (* L249 *)
  let dFF2 := 4275 / 1000 in  (* L253 *)
  let form_factor := if idx_surf then FF1 * (2 - airfoil) + FF2 * (airfoil - 1) else form_factor in  (* L255 *)
  let dform_dfine := if idx_surf then dFF1 * (2 - airfoil) + dFF2 * (airfoil - 1) else dform_dfine in  (* L256 *)
  let den := 1 / mission_wing_area in  (* L258 *)
  let CDF := wetted_area * cf * form_factor * den in  (* L259 *)
  let CDF0 := CDF in  (* L259 *)
  let excr := 1 + e Aircraft_Design_PERCENT_EXCRESCENCE_DRAG in  (* L261 *)
  let CDF := CDF * excr in  (* L262 *)
  let DCDF_dwet := excr * (cf * form_factor) * den in  (* L263 *)
  let DCDF_dcf := excr * wetted_area * form_factor * den in  (* L264 *)
  let DCDF_dform := excr * (wetted_area * cf) * den in  (* L265 *)
  let DCDF_dmwa := - excr * (wetted_area * cf * form_factor) * den ^ 2 in  (* L266 *)
  let DCDF_dlamup := DCDF_dcf * lam_lam * ((* _calc_laminar_flow_deriv, L301-302 *) let lam := lam_up in 64164 /
      10000000 + lam * (96174 / 1000000000 - 36702 / 100000000000 * lam)) in  (* L268 *)
  let DCDF_dlamlow := DCDF_dcf * lam_lam * ((* _calc_laminar_flow_deriv, L301-302 *) let lam := lam_low in 64164 /
      10000000 + lam * (96174 / 1000000000 - 36702 / 100000000000 * lam)) in  (* L269 *)
  let '(DCDF_dRe, DCDF_dcf) :=  (* L271 *)
    if laminar_flow then
      let DCDF_dRe := DCDF_dcf * lam_Re in  (* L272 *)
      let DCDF_dcf := DCDF_dcf * lam_cf in  (* L273 *)
      (DCDF_dRe, DCDF_dcf)
    else
      (0, DCDF_dcf) in
  let d_skin_friction_drag_coeff__skin_friction_coeff := DCDF_dcf in  (* L275 *)
  let d_skin_friction_drag_coeff__Re :=  (* L277 *)
    if laminar_flow then
      let d_skin_friction_drag_coeff__Re := DCDF_dRe in  (* L278 *)
      d_skin_friction_drag_coeff__Re
    else
      0 in
  let d_skin_friction_drag_coeff__fineness_ratios := DCDF_dform * dform_dfine in  (* L280 *)
  let d_skin_friction_drag_coeff__wetted_areas := DCDF_dwet in  (* L284 *)
  let d_skin_friction_drag_coeff__laminar_fractions_upper := DCDF_dlamup in  (* L286 *)
  let d_skin_friction_drag_coeff__laminar_fractions_lower := DCDF_dlamlow in  (* L288 *)
  let d_skin_friction_drag_coeff__Wing_AREA := DCDF_dmwa in  (* L290 *)
  let d_skin_friction_drag_coeff__Design_PERCENT_EXCRESCENCE_DRAG := CDF0 in  (* L292 *)
  [(v_skin_friction_drag_coeff, v_skin_friction_coeff, d_skin_friction_drag_coeff__skin_friction_coeff);
   (v_skin_friction_drag_coeff, v_Re, d_skin_friction_drag_coeff__Re);
   (v_skin_friction_drag_coeff, v_fineness_ratios, d_skin_friction_drag_coeff__fineness_ratios);
   (v_skin_friction_drag_coeff, v_wetted_areas, d_skin_friction_drag_coeff__wetted_areas);
   (v_skin_friction_drag_coeff, v_laminar_fractions_upper, d_skin_friction_drag_coeff__laminar_fractions_upper);
   (v_skin_friction_drag_coeff, v_laminar_fractions_lower, d_skin_friction_drag_coeff__laminar_fractions_lower);
   (v_skin_friction_drag_coeff, Aircraft_Wing_AREA, d_skin_friction_drag_coeff__Wing_AREA);
   (v_skin_friction_drag_coeff, Aircraft_Design_PERCENT_EXCRESCENCE_DRAG,
       d_skin_friction_drag_coeff__Design_PERCENT_EXCRESCENCE_DRAG)].

(** Inputs, outputs and declared partials: /repo/aviary/subsystems/aerodynamics/flops_based/skin_friction_drag.py L42-125 *)
Definition SkinFrictionTerm (op : options) : comp := {|
  c_ins := [v_skin_friction_coeff;
            v_Re;
            v_fineness_ratios;
            v_wetted_areas;
            v_laminar_fractions_upper;
            v_laminar_fractions_lower;
            Aircraft_Design_PERCENT_EXCRESCENCE_DRAG;
            Aircraft_Wing_AREA];
  c_outs := [v_skin_friction_drag_coeff];
  c_decl := [(v_skin_friction_drag_coeff, Aircraft_Wing_AREA, 0);
             (v_skin_friction_drag_coeff, Aircraft_Design_PERCENT_EXCRESCENCE_DRAG, 0);
             (v_skin_friction_drag_coeff, v_fineness_ratios, 0);
             (v_skin_friction_drag_coeff, v_wetted_areas, 0);
             (v_skin_friction_drag_coeff, v_laminar_fractions_upper, 0);
             (v_skin_friction_drag_coeff, v_laminar_fractions_lower, 0);
             (v_skin_friction_drag_coeff, v_skin_friction_coeff, 0);
             (v_skin_friction_drag_coeff, v_Re, 0)];
  c_run := SkinFrictionTerm_compute op; c_jac := SkinFrictionTerm_partials op |}.

(** The inputs that are scalars, shared by all nodes. *)
Definition SkinFrictionTerm_shared : list string := [v_fineness_ratios; v_wetted_areas; v_laminar_fractions_upper;
    v_laminar_fractions_lower; Aircraft_Design_PERCENT_EXCRESCENCE_DRAG; Aircraft_Wing_AREA].

(** SizeBattery.compute, /repo/aviary/subsystems/energy/battery_sizing.py L39-48 *)
Definition SizeBattery_compute (op : options) (e : env) : list (string * R) :=
  let energy_density_kj_kg := e Aircraft_Battery_PACK_ENERGY_DENSITY in  (* L40 *)
  let addtl_mass := e Aircraft_Battery_ADDITIONAL_MASS in  (* L41 *)
  let pack_mass := e Aircraft_Battery_PACK_MASS in  (* L42 *)
  let total_mass := pack_mass + addtl_mass in  (* L44 *)
  let total_energy := pack_mass * energy_density_kj_kg in  (* L45 *)
  let o_Battery_MASS := total_mass in  (* L47 *)
  let o_Battery_ENERGY_CAPACITY := total_energy in  (* L48 *)
  [(Aircraft_Battery_MASS, o_Battery_MASS);
   (Aircraft_Battery_ENERGY_CAPACITY, o_Battery_ENERGY_CAPACITY)].

(** SizeBattery.compute_partials, /repo/aviary/subsystems/energy/battery_sizing.py L59-64 *)
Definition SizeBattery_partials (op : options) (e : env) : list (string * string * R) :=
  let energy_density_kj_kg := e Aircraft_Battery_PACK_ENERGY_DENSITY in  (* L60 *)
  let pack_mass := e Aircraft_Battery_PACK_MASS in  (* L61 *)
  let d_Battery_ENERGY_CAPACITY__Battery_PACK_ENERGY_DENSITY := pack_mass in  (* L63 *)
  let d_Battery_ENERGY_CAPACITY__Battery_PACK_MASS := energy_density_kj_kg in  (* L64 *)
  [(Aircraft_Battery_ENERGY_CAPACITY, Aircraft_Battery_PACK_ENERGY_DENSITY,
      d_Battery_ENERGY_CAPACITY__Battery_PACK_ENERGY_DENSITY);
   (Aircraft_Battery_ENERGY_CAPACITY, Aircraft_Battery_PACK_MASS, d_Battery_ENERGY_CAPACITY__Battery_PACK_MASS)].

(** Inputs, outputs and declared partials: /repo/aviary/subsystems/energy/battery_sizing.py L11-57 *)
Definition SizeBattery (op : options) : comp := {|
  c_ins := [Aircraft_Battery_PACK_MASS;
            Aircraft_Battery_ADDITIONAL_MASS;
            Aircraft_Battery_PACK_ENERGY_DENSITY];
  c_outs := [Aircraft_Battery_MASS;
             Aircraft_Battery_ENERGY_CAPACITY];
  c_decl := [(Aircraft_Battery_ENERGY_CAPACITY, Aircraft_Battery_PACK_ENERGY_DENSITY, 0);
             (Aircraft_Battery_ENERGY_CAPACITY, Aircraft_Battery_PACK_MASS, 0);
             (Aircraft_Battery_MASS, Aircraft_Battery_ADDITIONAL_MASS, 1);
             (Aircraft_Battery_MASS, Aircraft_Battery_PACK_MASS, 1)];
  c_run := SizeBattery_compute op; c_jac := SizeBattery_partials op |}.
