(** Takeoff and landing estimates: /repo/aviary/mission/energy_state/phases and
    /repo/aviary/mission/two_dof/ode/landing_eom.py.

    Generated by tools/py2coq.py from the source text; see the header of that file for the rules.  Decimal
    literals are exact and numbers are real numbers. *)
From Coq Require Import Reals.
From Verif Require Import Base Comp.
Open Scope list_scope.
Open Scope string_scope.
Local Open Scope R_scope.

(** ** Variable names, /repo/aviary/variable_info/variables.py *)
Definition Aircraft_Propulsion_TOTAL_SCALED_SLS_THRUST := "aircraft:propulsion:total_scaled_sls_thrust".
Definition Aircraft_Wing_AREA := "aircraft:wing:area".
Definition Dynamic_Atmosphere_DENSITY := "density".
Definition Dynamic_Vehicle_MASS := "mass".
Definition Mission_FINAL_MASS := "mission:final_mass".
Definition Mission_GRAVITY := "mission:gravity".
Definition Mission_Landing_AIRPORT_ALTITUDE := "mission:landing:airport_altitude".
Definition Mission_Landing_BRAKING_DELAY := "mission:landing:braking_delay".
Definition Mission_Landing_BRAKING_FRICTION_COEFFICIENT := "mission:landing:braking_friction_coefficient".
Definition Mission_Landing_GLIDE_TO_STALL_RATIO := "mission:landing:glide_to_stall_ratio".
Definition Mission_Landing_GROUND_DISTANCE := "mission:landing:ground_distance".
Definition Mission_Landing_INITIAL_ALTITUDE := "mission:landing:initial_altitude".
Definition Mission_Landing_INITIAL_VELOCITY := "mission:landing:initial_velocity".
Definition Mission_Landing_LIFT_COEFFICIENT_MAX := "mission:landing:lift_coefficient_max".
Definition Mission_Landing_MAXIMUM_FLARE_LOAD_FACTOR := "mission:landing:maximum_flare_load_factor".
Definition Mission_Landing_MAXIMUM_SINK_RATE := "mission:landing:maximum_sink_rate".
Definition Mission_Landing_OBSTACLE_HEIGHT := "mission:landing:obstacle_height".
Definition Mission_Landing_STALL_VELOCITY := "mission:landing:stall_velocity".
Definition Mission_Landing_TOUCHDOWN_SINK_RATE := "mission:landing:touchdown_sink_rate".
Definition Mission_SEA_LEVEL_DENSITY := "mission:sea_level_density".
Definition Mission_Takeoff_CLIMBOUT_THRUST_FRACTION := "mission:takeoff:climbout_thrust_fraction".
Definition Mission_Takeoff_FINAL_ALTITUDE := "mission:takeoff:final_altitude".
Definition Mission_Takeoff_FINAL_MASS := "mission:takeoff:final_mass".
Definition Mission_Takeoff_FINAL_VELOCITY := "mission:takeoff:final_velocity".
Definition Mission_Takeoff_FUEL_MASS := "mission:takeoff:fuel_mass".
Definition Mission_Takeoff_GROUND_DISTANCE := "mission:takeoff:ground_distance".
Definition Mission_Takeoff_LIFT_COEFFICIENT_MAX := "mission:takeoff:lift_coefficient_max".
Definition Mission_Takeoff_LIFT_OVER_DRAG := "mission:takeoff:lift_over_drag".
Definition v_CL_max := "CL_max".
Definition v_Cl_max := "Cl_max".
Definition v_TAS_touchdown := "TAS_touchdown".
Definition v_average_acceleration := "average_acceleration".
Definition v_delay_distance := "delay_distance".
Definition v_density_ratio := "density_ratio".
Definition v_flare_alt := "flare_alt".
Definition v_glide_distance := "glide_distance".
Definition v_ground_roll_distance := "ground_roll_distance".
Definition v_theta := "theta".
Definition v_thrust_idle := "thrust_idle".
Definition v_touchdown_CD := "touchdown_CD".
Definition v_touchdown_CL := "touchdown_CL".
Definition v_tr_distance := "tr_distance".
Definition v_v_stall := "v_stall".
Definition v_wing_loading_land := "wing_loading_land".


(** LandingCalc.compute, /repo/aviary/mission/energy_state/phases/simplified_landing.py L27-47 *)
Definition LandingCalc_compute (op : options) (e : env) : list (string * R) :=
  let rho_SL := on op Mission_SEA_LEVEL_DENSITY in  (* L28 *)
  let landing_weight := e Mission_FINAL_MASS * GRAV_ENGLISH_LBM in  (* L30 *)
  let rho := e Dynamic_Atmosphere_DENSITY in  (* L31 *)
  let planform_area := e Aircraft_Wing_AREA in  (* L32 *)
  let Cl_ldg_max := e Mission_Landing_LIFT_COEFFICIENT_MAX in  (* L33 *)
  let rho_ratio := rho / rho_SL in  (* L35 *)
  let Cl_app := Cl_ldg_max / (13 / 10) ^ 2 in  (* L40 *)
  let V_app := (2 * landing_weight / (rho * planform_area * Cl_app)) ** (5 / 10) in  (* L42 *)
  let landing_distance := 2500 + 105 * landing_weight / (planform_area * rho_ratio * Cl_app * (169 / 100)) in  (* L44 *)
  let o_Landing_GROUND_DISTANCE := landing_distance in  (* L46 *)
  let o_Landing_INITIAL_VELOCITY := V_app in  (* L47 *)
  [(Mission_Landing_GROUND_DISTANCE, o_Landing_GROUND_DISTANCE);
   (Mission_Landing_INITIAL_VELOCITY, o_Landing_INITIAL_VELOCITY)].

(** LandingCalc.compute_partials, /repo/aviary/mission/energy_state/phases/simplified_landing.py L49-92 *)
Definition LandingCalc_partials (op : options) (e : env) : list (string * string * R) :=
  let rho_SL := on op Mission_SEA_LEVEL_DENSITY in  (* L50 *)
  let landing_weight := e Mission_FINAL_MASS * GRAV_ENGLISH_LBM in  (* L51 *)
  let rho := e Dynamic_Atmosphere_DENSITY in  (* L52 *)
  let planform_area := e Aircraft_Wing_AREA in  (* L53 *)
  let Cl_ldg_max := e Mission_Landing_LIFT_COEFFICIENT_MAX in  (* L54 *)
  let rho_ratio := rho / rho_SL in  (* L56 *)
  let Cl_app := Cl_ldg_max / (13 / 10) ^ 2 in  (* L58 *)
  let V_app := (2 * landing_weight / (rho * planform_area * Cl_app)) ** (5 / 10) in  (* L61 *)
  let d_sqrt := 5 / 10 / V_app in  (* L62 *)
  let d_Landing_INITIAL_VELOCITY__FINAL_MASS := d_sqrt * (2 * GRAV_ENGLISH_LBM) / (rho * planform_area * Cl_app) in  (* L64 *)
  let d_Landing_INITIAL_VELOCITY__Atmosphere_DENSITY := d_sqrt * (- 2 * landing_weight) / (rho ^ 2 * planform_area *
      Cl_app) in  (* L68 *)
  let d_Landing_INITIAL_VELOCITY__Wing_AREA := d_sqrt * (- 2 * landing_weight) / (rho * planform_area ^ 2 * Cl_app) in  (* L72 *)
  let d_Landing_INITIAL_VELOCITY__Landing_LIFT_COEFFICIENT_MAX := d_sqrt * (- 2 * landing_weight) / (rho *
      planform_area * Cl_app ^ 2) / (13 / 10) ^ 2 in  (* L76 *)
  let d_Landing_GROUND_DISTANCE__FINAL_MASS := 105 * GRAV_ENGLISH_LBM / (planform_area * rho_ratio * Cl_app * (169 /
      100)) in  (* L81 *)
  let d_Landing_GROUND_DISTANCE__Wing_AREA := - 105 * landing_weight / (planform_area ^ 2 * rho_ratio * Cl_app * (169
      / 100)) in  (* L84 *)
  let d_Landing_GROUND_DISTANCE__Landing_LIFT_COEFFICIENT_MAX := - 105 * landing_weight / (planform_area * rho_ratio *
      Cl_app ^ 2 * (169 / 100)) / (13 / 10) ^ 2 in  (* L87 *)
  let d_Landing_GROUND_DISTANCE__Atmosphere_DENSITY := - 105 * landing_weight / (planform_area * rho_ratio ^ 2 *
      Cl_app * (169 / 100)) / rho_SL in  (* L90 *)
  [(Mission_Landing_INITIAL_VELOCITY, Mission_FINAL_MASS, d_Landing_INITIAL_VELOCITY__FINAL_MASS);
   (Mission_Landing_INITIAL_VELOCITY, Dynamic_Atmosphere_DENSITY, d_Landing_INITIAL_VELOCITY__Atmosphere_DENSITY);
   (Mission_Landing_INITIAL_VELOCITY, Aircraft_Wing_AREA, d_Landing_INITIAL_VELOCITY__Wing_AREA);
   (Mission_Landing_INITIAL_VELOCITY, Mission_Landing_LIFT_COEFFICIENT_MAX,
       d_Landing_INITIAL_VELOCITY__Landing_LIFT_COEFFICIENT_MAX);
   (Mission_Landing_GROUND_DISTANCE, Mission_FINAL_MASS, d_Landing_GROUND_DISTANCE__FINAL_MASS);
   (Mission_Landing_GROUND_DISTANCE, Aircraft_Wing_AREA, d_Landing_GROUND_DISTANCE__Wing_AREA);
   (Mission_Landing_GROUND_DISTANCE, Mission_Landing_LIFT_COEFFICIENT_MAX,
       d_Landing_GROUND_DISTANCE__Landing_LIFT_COEFFICIENT_MAX);
   (Mission_Landing_GROUND_DISTANCE, Dynamic_Atmosphere_DENSITY, d_Landing_GROUND_DISTANCE__Atmosphere_DENSITY)].

(** Inputs, outputs and declared partials: /repo/aviary/mission/energy_state/phases/simplified_landing.py L15-25 *)
Definition LandingCalc (op : options) : comp := {|
  c_ins := [Mission_FINAL_MASS;
            Dynamic_Atmosphere_DENSITY;
            Aircraft_Wing_AREA;
            Mission_Landing_LIFT_COEFFICIENT_MAX];
  c_outs := [Mission_Landing_GROUND_DISTANCE;
             Mission_Landing_INITIAL_VELOCITY];
  c_decl := [(Mission_Landing_INITIAL_VELOCITY, Mission_FINAL_MASS, 0);
             (Mission_Landing_INITIAL_VELOCITY, Dynamic_Atmosphere_DENSITY, 0);
             (Mission_Landing_INITIAL_VELOCITY, Aircraft_Wing_AREA, 0);
             (Mission_Landing_INITIAL_VELOCITY, Mission_Landing_LIFT_COEFFICIENT_MAX, 0);
             (Mission_Landing_GROUND_DISTANCE, Mission_FINAL_MASS, 0);
             (Mission_Landing_GROUND_DISTANCE, Dynamic_Atmosphere_DENSITY, 0);
             (Mission_Landing_GROUND_DISTANCE, Aircraft_Wing_AREA, 0);
             (Mission_Landing_GROUND_DISTANCE, Mission_Landing_LIFT_COEFFICIENT_MAX, 0)];
  c_run := LandingCalc_compute op; c_jac := LandingCalc_partials op |}.

(** StallSpeed.compute, /repo/aviary/mission/energy_state/phases/simplified_takeoff.py L31-43 *)
Definition StallSpeed_compute (op : options) (e : env) : list (string * R) :=
  let weight := e Dynamic_Vehicle_MASS * GRAV_ENGLISH_LBM in  (* L32 *)
  let weight := weight * (444822 / 100000) in  (* L36 *)
  let rho := e Dynamic_Atmosphere_DENSITY in  (* L37 *)
  let S_ := e Aircraft_Wing_AREA in  (* L38 *)
  let Cl_max := e v_Cl_max in  (* L39 *)
  let v_stall := (2 * weight / (rho * S_ * Cl_max)) ** (5 / 10) in  (* L41 *)
  let o_v_stall := v_stall in  (* L43 *)
  [(v_v_stall, o_v_stall)].

(** StallSpeed.compute_partials, /repo/aviary/mission/energy_state/phases/simplified_takeoff.py L45-64 *)
Definition StallSpeed_partials (op : options) (e : env) : list (string * string * R) :=
  let weight := e Dynamic_Vehicle_MASS * GRAV_ENGLISH_LBM in  (* L46 *)
  let rho := e Dynamic_Atmosphere_DENSITY in  (* L47 *)
  let S_ := e Aircraft_Wing_AREA in  (* L48 *)
  let Cl_max := e v_Cl_max in  (* L49 *)
  let rad := 2 * weight / (rho * S_ * Cl_max) in  (* L51 *)
  let d_v_stall__Vehicle_MASS := 5 / 10 * (444822 / 100000) ** (5 / 10) * rad ** (- 5 / 10) * 2 * GRAV_ENGLISH_LBM /
      (rho * S_ * Cl_max) in  (* L53 *)
  let d_v_stall__Atmosphere_DENSITY := 5 / 10 * (444822 / 100000) ** (5 / 10) * rad ** (- 5 / 10) * (- 2 * weight) /
      (rho ^ 2 * S_ * Cl_max) in  (* L56 *)
  let d_v_stall__Wing_AREA := 5 / 10 * (444822 / 100000) ** (5 / 10) * rad ** (- 5 / 10) * (- 2 * weight) / (rho * S_
      ^ 2 * Cl_max) in  (* L59 *)
  let d_v_stall__Cl_max := 5 / 10 * (444822 / 100000) ** (5 / 10) * rad ** (- 5 / 10) * (- 2 * weight) / (rho * S_ *
      Cl_max ^ 2) in  (* L62 *)
  [(v_v_stall, Dynamic_Vehicle_MASS, d_v_stall__Vehicle_MASS);
   (v_v_stall, Dynamic_Atmosphere_DENSITY, d_v_stall__Atmosphere_DENSITY);
   (v_v_stall, Aircraft_Wing_AREA, d_v_stall__Wing_AREA);
   (v_v_stall, v_Cl_max, d_v_stall__Cl_max)].

(** Inputs, outputs and declared partials: /repo/aviary/mission/energy_state/phases/simplified_takeoff.py L15-29 *)
Definition StallSpeed (op : options) : comp := {|
  c_ins := [Dynamic_Vehicle_MASS;
            Dynamic_Atmosphere_DENSITY;
            Aircraft_Wing_AREA;
            v_Cl_max];
  c_outs := [v_v_stall];
  c_decl := [(v_v_stall, Dynamic_Vehicle_MASS, 0);
             (v_v_stall, Dynamic_Atmosphere_DENSITY, 0);
             (v_v_stall, Aircraft_Wing_AREA, 0);
             (v_v_stall, v_Cl_max, 0)];
  c_run := StallSpeed_compute op; c_jac := StallSpeed_partials op |}.

(** FinalTakeoffConditions.compute, /repo/aviary/mission/energy_state/phases/simplified_takeoff.py L139-181 *)
Definition FinalTakeoffConditions_compute (op : options) (e : env) : list (string * R) :=
  let rho_SL := on op Mission_SEA_LEVEL_DENSITY in  (* L140 *)
  let v_stall := e v_v_stall in  (* L142 *)
  let gross_mass := e Dynamic_Vehicle_MASS in  (* L143 *)
  let ramp_weight := gross_mass * GRAV_ENGLISH_LBM in  (* L144 *)
  let rho := e Dynamic_Atmosphere_DENSITY in  (* L145 *)
  let S_ := e Aircraft_Wing_AREA in  (* L146 *)
  let Cl_max := e Mission_Takeoff_LIFT_COEFFICIENT_MAX in  (* L147 *)
  let thrust := e Aircraft_Propulsion_TOTAL_SCALED_SLS_THRUST in  (* L148 *)
  let climbout_thrust := thrust * e Mission_Takeoff_CLIMBOUT_THRUST_FRACTION in  (* L149 *)
  let L_over_D := e Mission_Takeoff_LIFT_OVER_DRAG in  (* L150 *)
  let rho_ratio := rho / rho_SL in  (* L151 *)
  let rolling_distance := 17 * ramp_weight / (S_ * Cl_max * (thrust / ramp_weight - (2 / 10 + 55 / 10000 * ramp_weight
      / S_) / L_over_D)) in  (* L155 *)
  let rotation_distance := 140 * (ramp_weight / (S_ * Cl_max * rho_ratio)) ** (5 / 10) in  (* L161 *)
  let climbout_distance := 140 * (ramp_weight / S_) ** (5 / 10) / (1 + climbout_thrust / ramp_weight - 9 / 10 /
      L_over_D) in  (* L166 *)
  let V2 := v_stall * (12309 / 10000) in  (* L174 *)
  let o_Takeoff_GROUND_DISTANCE := rolling_distance + rotation_distance + climbout_distance in  (* L176 *)
  let o_Takeoff_FINAL_VELOCITY := V2 in  (* L179 *)
  let o_Takeoff_FINAL_MASS := gross_mass - e Mission_Takeoff_FUEL_MASS in  (* L180 *)
  let o_Takeoff_FINAL_ALTITUDE := 35 in  (* L181 *)
  [(Mission_Takeoff_GROUND_DISTANCE, o_Takeoff_GROUND_DISTANCE);
   (Mission_Takeoff_FINAL_VELOCITY, o_Takeoff_FINAL_VELOCITY);
   (Mission_Takeoff_FINAL_MASS, o_Takeoff_FINAL_MASS);
   (Mission_Takeoff_FINAL_ALTITUDE, o_Takeoff_FINAL_ALTITUDE)].

(** FinalTakeoffConditions.compute_partials, /repo/aviary/mission/energy_state/phases/simplified_takeoff.py L183-281 *)
Definition FinalTakeoffConditions_partials (op : options) (e : env) : list (string * string * R) :=
  let rho_SL := on op Mission_SEA_LEVEL_DENSITY in  (* L184 *)
  let ramp_weight := e Dynamic_Vehicle_MASS * GRAV_ENGLISH_LBM in  (* L186 *)
  let rho := e Dynamic_Atmosphere_DENSITY in  (* L187 *)
  let S_ := e Aircraft_Wing_AREA in  (* L188 *)
  let Cl_max := e Mission_Takeoff_LIFT_COEFFICIENT_MAX in  (* L189 *)
  let thrust := e Aircraft_Propulsion_TOTAL_SCALED_SLS_THRUST in  (* L190 *)
  let thrust_fraction := e Mission_Takeoff_CLIMBOUT_THRUST_FRACTION in  (* L191 *)
  let climbout_thrust := thrust * thrust_fraction in  (* L192 *)
  let L_over_D := e Mission_Takeoff_LIFT_OVER_DRAG in  (* L193 *)
  let rho_ratio := rho / rho_SL in  (* L194 *)
  let den_RD := S_ * Cl_max * (thrust / ramp_weight - (2 / 10 + 55 / 10000 * ramp_weight / S_) / L_over_D) in  (* L196 *)
  let rad_Rot := ramp_weight / (S_ * Cl_max * rho_ratio) in  (* L197 *)
  let den_Cout := 1 + climbout_thrust / ramp_weight - 9 / 10 / L_over_D in  (* L198 *)
  let dRD_dM := (17 / den_RD - 17 * ramp_weight / den_RD ^ 2 * S_ * Cl_max * (- thrust / ramp_weight ^ 2 - 55 / 10000
      / S_ / L_over_D)) * GRAV_ENGLISH_LBM in  (* L200 *)
  let dRD_dS := (den_RD * 0 - 17 * ramp_weight * (Cl_max * (thrust / ramp_weight - (2 / 10 + 55 / 10000 * ramp_weight
      / S_) / L_over_D) + S_ * Cl_max * (55 / 10000 * ramp_weight / S_ ^ 2 / L_over_D))) / den_RD ^ 2 in  (* L209 *)
  let dRD_dClMax := - 17 * ramp_weight / den_RD ^ 2 * (S_ * (thrust / ramp_weight - (2 / 10 + 55 / 10000 * ramp_weight
      / S_) / L_over_D)) in  (* L218 *)
  let dRD_dThrust := - 17 * ramp_weight / (S_ * Cl_max * (thrust / ramp_weight - (2 / 10 + 55 / 10000 * ramp_weight /
      S_) / L_over_D)) ^ 2 * S_ * Cl_max / ramp_weight in  (* L224 *)
  let dRD_dLoD := - 17 * ramp_weight / (S_ * Cl_max * (thrust / ramp_weight - (2 / 10 + 55 / 10000 * ramp_weight / S_)
      / L_over_D)) ^ 2 * S_ * Cl_max * (2 / 10 + 55 / 10000 * ramp_weight / S_) / L_over_D ^ 2 in  (* L233 *)
  let dRD_dRho := 0 in  (* L243 *)
  let dRot_dM := 140 * (5 / 10) * rad_Rot ** (- 5 / 10) / (S_ * Cl_max * rho_ratio) * GRAV_ENGLISH_LBM in  (* L245 *)
  let dRot_dS := 140 * (5 / 10) * rad_Rot ** (- 5 / 10) * (- ramp_weight / (S_ ^ 2 * Cl_max * rho_ratio)) in  (* L246 *)
  let dRot_dClMax := 140 * (5 / 10) * rad_Rot ** (- 5 / 10) * (- ramp_weight / (S_ * Cl_max ^ 2 * rho_ratio)) in  (* L247 *)
  let dRot_dThrust := 0 in  (* L248 *)
  let dRot_dLoD := 0 in  (* L249 *)
  let dRot_dRho := 140 * (5 / 10) * rad_Rot ** (- 5 / 10) * (- ramp_weight / (S_ * Cl_max * rho ^ 2 / rho_SL)) in  (* L250 *)
  let dCout_dM := (140 * (5 / 10) * (ramp_weight / S_) ** (- 5 / 10) / S_ / den_Cout - 140 * (ramp_weight / S_) ** (5
      / 10) / den_Cout ^ 2 * (- climbout_thrust / ramp_weight ^ 2)) * GRAV_ENGLISH_LBM in  (* L252 *)
  let dCout_dS := 140 * (5 / 10) * (ramp_weight / S_) ** (- 5 / 10) * - ramp_weight / S_ ^ 2 / den_Cout in  (* L256 *)
  let dCout_dClMax := 0 in  (* L257 *)
  let dCout_dThrust := - 140 * (ramp_weight / S_) ** (5 / 10) / den_Cout ^ 2 * (thrust_fraction / ramp_weight) in  (* L258 *)
  let dCout_dThrustFrac := - 140 * (ramp_weight / S_) ** (5 / 10) / den_Cout ^ 2 * (thrust / ramp_weight) in  (* L261 *)
  let dCout_dLoD := - 140 * (ramp_weight / S_) ** (5 / 10) / den_Cout ^ 2 * (9 / 10) / L_over_D ^ 2 in  (* L262 *)
  let dCout_dRho := 0 in  (* L263 *)
  let d_Takeoff_GROUND_DISTANCE__Vehicle_MASS := dRD_dM + dRot_dM + dCout_dM in  (* L265 *)
  let d_Takeoff_GROUND_DISTANCE__Atmosphere_DENSITY := dRD_dRho + dRot_dRho + dCout_dRho in  (* L266 *)
  let d_Takeoff_GROUND_DISTANCE__Wing_AREA := dRD_dS + dRot_dS + dCout_dS in  (* L269 *)
  let d_Takeoff_GROUND_DISTANCE__Takeoff_LIFT_COEFFICIENT_MAX := dRD_dClMax + dRot_dClMax + dCout_dClMax in  (* L270 *)
  let d_Takeoff_GROUND_DISTANCE__Propulsion_TOTAL_SCALED_SLS_THRUST := dRD_dThrust + dRot_dThrust + dCout_dThrust in  (* L273 *)
  let d_Takeoff_GROUND_DISTANCE__Takeoff_CLIMBOUT_THRUST_FRACTION := 0 + 0 + dCout_dThrustFrac in  (* L276 *)
  let d_Takeoff_GROUND_DISTANCE__Takeoff_LIFT_OVER_DRAG := dRD_dLoD + dRot_dLoD + dCout_dLoD in  (* L279 *)
  [(Mission_Takeoff_GROUND_DISTANCE, Dynamic_Vehicle_MASS, d_Takeoff_GROUND_DISTANCE__Vehicle_MASS);
   (Mission_Takeoff_GROUND_DISTANCE, Dynamic_Atmosphere_DENSITY, d_Takeoff_GROUND_DISTANCE__Atmosphere_DENSITY);
   (Mission_Takeoff_GROUND_DISTANCE, Aircraft_Wing_AREA, d_Takeoff_GROUND_DISTANCE__Wing_AREA);
   (Mission_Takeoff_GROUND_DISTANCE, Mission_Takeoff_LIFT_COEFFICIENT_MAX,
       d_Takeoff_GROUND_DISTANCE__Takeoff_LIFT_COEFFICIENT_MAX);
   (Mission_Takeoff_GROUND_DISTANCE, Aircraft_Propulsion_TOTAL_SCALED_SLS_THRUST,
       d_Takeoff_GROUND_DISTANCE__Propulsion_TOTAL_SCALED_SLS_THRUST);
   (Mission_Takeoff_GROUND_DISTANCE, Mission_Takeoff_CLIMBOUT_THRUST_FRACTION,
       d_Takeoff_GROUND_DISTANCE__Takeoff_CLIMBOUT_THRUST_FRACTION);
   (Mission_Takeoff_GROUND_DISTANCE, Mission_Takeoff_LIFT_OVER_DRAG,
       d_Takeoff_GROUND_DISTANCE__Takeoff_LIFT_OVER_DRAG)].

(** Inputs, outputs and declared partials: /repo/aviary/mission/energy_state/phases/simplified_takeoff.py L76-137 *)
Definition FinalTakeoffConditions (op : options) : comp := {|
  c_ins := [v_v_stall;
            Dynamic_Vehicle_MASS;
            Mission_Takeoff_FUEL_MASS;
            Dynamic_Atmosphere_DENSITY;
            Aircraft_Wing_AREA;
            Mission_Takeoff_LIFT_COEFFICIENT_MAX;
            Aircraft_Propulsion_TOTAL_SCALED_SLS_THRUST;
            Mission_Takeoff_LIFT_OVER_DRAG;
            Mission_Takeoff_CLIMBOUT_THRUST_FRACTION];
  c_outs := [Mission_Takeoff_GROUND_DISTANCE;
             Mission_Takeoff_FINAL_VELOCITY;
             Mission_Takeoff_FINAL_MASS;
             Mission_Takeoff_FINAL_ALTITUDE];
  c_decl := [(Mission_Takeoff_FINAL_VELOCITY, v_v_stall, 12309 / 10000);
             (Mission_Takeoff_GROUND_DISTANCE, Dynamic_Vehicle_MASS, 0);
             (Mission_Takeoff_GROUND_DISTANCE, Dynamic_Atmosphere_DENSITY, 0);
             (Mission_Takeoff_GROUND_DISTANCE, Aircraft_Wing_AREA, 0);
             (Mission_Takeoff_GROUND_DISTANCE, Mission_Takeoff_LIFT_COEFFICIENT_MAX, 0);
             (Mission_Takeoff_GROUND_DISTANCE, Aircraft_Propulsion_TOTAL_SCALED_SLS_THRUST, 0);
             (Mission_Takeoff_GROUND_DISTANCE, Mission_Takeoff_CLIMBOUT_THRUST_FRACTION, 0);
             (Mission_Takeoff_GROUND_DISTANCE, Mission_Takeoff_LIFT_OVER_DRAG, 0);
             (Mission_Takeoff_FINAL_MASS, Dynamic_Vehicle_MASS, 1);
             (Mission_Takeoff_FINAL_MASS, Mission_Takeoff_FUEL_MASS, - 1)];
  c_run := FinalTakeoffConditions_compute op; c_jac := FinalTakeoffConditions_partials op |}.

(** LandingAltitudeComponent.compute, /repo/aviary/mission/two_dof/ode/landing_eom.py L20-25 *)
Definition LandingAltitudeComponent_compute (op : options) (e : env) : list (string * R) :=
  let approach_height := e Mission_Landing_OBSTACLE_HEIGHT in  (* L21 *)
  let airport_alt := e Mission_Landing_AIRPORT_ALTITUDE in  (* L21 *)
  let o_Landing_INITIAL_ALTITUDE := airport_alt + approach_height in  (* L25 *)
  [(Mission_Landing_INITIAL_ALTITUDE, o_Landing_INITIAL_ALTITUDE)].

(** LandingAltitudeComponent.compute_partials, /repo/aviary/mission/two_dof/ode/landing_eom.py L27-28 *)
Definition LandingAltitudeComponent_partials (op : options) (e : env) : list (string * string * R) :=
  [].

(** Inputs, outputs and declared partials: /repo/aviary/mission/two_dof/ode/landing_eom.py L12-18 *)
Definition LandingAltitudeComponent (op : options) : comp := {|
  c_ins := [Mission_Landing_OBSTACLE_HEIGHT;
            Mission_Landing_AIRPORT_ALTITUDE];
  c_outs := [Mission_Landing_INITIAL_ALTITUDE];
  c_decl := [(Mission_Landing_INITIAL_ALTITUDE, Mission_Landing_OBSTACLE_HEIGHT, 1);
             (Mission_Landing_INITIAL_ALTITUDE, Mission_Landing_AIRPORT_ALTITUDE, 1)];
  c_run := LandingAltitudeComponent_compute op; c_jac := LandingAltitudeComponent_partials op |}.

(** GlideConditionComponent.compute, /repo/aviary/mission/two_dof/ode/landing_eom.py L184-233 *)
Definition GlideConditionComponent_compute (op : options) (e : env) : list (string * R) :=
  let grav_english := on op Mission_GRAVITY in  (* L185 *)
  let rho_app := e Dynamic_Atmosphere_DENSITY in  (* L186 *)
  let rate_of_sink_max := e Mission_Landing_MAXIMUM_SINK_RATE in  (* L186 *)
  let mass := e Dynamic_Vehicle_MASS in  (* L186 *)
  let wing_area := e Aircraft_Wing_AREA in  (* L186 *)
  let glide_to_stall_ratio := e Mission_Landing_GLIDE_TO_STALL_RATIO in  (* L186 *)
  let CL_max := e v_CL_max in  (* L186 *)
  let landing_flare_load_factor := e Mission_Landing_MAXIMUM_FLARE_LOAD_FACTOR in  (* L186 *)
  let rate_of_sink_td := e Mission_Landing_TOUCHDOWN_SINK_RATE in  (* L186 *)
  let approach_alt := e Mission_Landing_INITIAL_ALTITUDE in  (* L186 *)
  let time_delay := e Mission_Landing_BRAKING_DELAY in  (* L186 *)
  let weight := mass * GRAV_ENGLISH_LBM in  (* L198 *)
  let G := grav_english in  (* L199 *)
  let wing_loading_land := weight / wing_area in  (* L201 *)
  let TAS_stall := sqrt (2 * wing_loading_land / (CL_max * rho_app)) in  (* L202 *)
  let TAS_glide := TAS_stall * glide_to_stall_ratio in  (* L203 *)
  let theta := asin (rate_of_sink_max / (60 * TAS_glide)) in  (* L204 *)
  let glide_distance := approach_alt / tan theta in  (* L205 *)
  let gamma_touchdown := rate_of_sink_td / TAS_glide in  (* L208 *)
  let touchdown_velocity_ratio := (glide_to_stall_ratio + 1) * (5 / 10) in  (* L209 *)
  let RZ := TAS_glide * TAS_glide / G / (landing_flare_load_factor - 1) in  (* L210 *)
  let flare_alt := TAS_glide * TAS_glide * (theta * theta - gamma_touchdown * gamma_touchdown) / (2 * G *
      (landing_flare_load_factor - 1)) in  (* L212 *)
  let TAS_touchdown := touchdown_velocity_ratio * TAS_stall in  (* L218 *)
  let tr_distance := RZ * theta / 2 * (1 - gamma_touchdown / theta) ^ 2 in  (* L219 *)
  let delay_distance := TAS_touchdown * time_delay in  (* L220 *)
  let rho_sea_level := on op Mission_SEA_LEVEL_DENSITY in  (* L222 *)
  let o_flare_alt := flare_alt in  (* L224 *)
  let o_Landing_INITIAL_VELOCITY := TAS_glide in  (* L225 *)
  let o_Landing_STALL_VELOCITY := TAS_stall in  (* L226 *)
  let o_TAS_touchdown := TAS_touchdown in  (* L227 *)
  let o_density_ratio := rho_app / rho_sea_level in  (* L228 *)
  let o_wing_loading_land := wing_loading_land in  (* L229 *)
  let o_glide_distance := glide_distance in  (* L230 *)
  let o_tr_distance := tr_distance in  (* L231 *)
  let o_delay_distance := delay_distance in  (* L232 *)
  let o_theta := theta in  (* L233 *)
  [(v_flare_alt, o_flare_alt);
   (Mission_Landing_INITIAL_VELOCITY, o_Landing_INITIAL_VELOCITY);
   (Mission_Landing_STALL_VELOCITY, o_Landing_STALL_VELOCITY);
   (v_TAS_touchdown, o_TAS_touchdown);
   (v_density_ratio, o_density_ratio);
   (v_wing_loading_land, o_wing_loading_land);
   (v_glide_distance, o_glide_distance);
   (v_tr_distance, o_tr_distance);
   (v_delay_distance, o_delay_distance);
   (v_theta, o_theta)].

(** GlideConditionComponent.compute_partials, /repo/aviary/mission/two_dof/ode/landing_eom.py L235-535 *)
Definition GlideConditionComponent_partials (op : options) (e : env) : list (string * string * R) :=
  let grav_english := on op Mission_GRAVITY in  (* L236 *)
  let rho_app := e Dynamic_Atmosphere_DENSITY in  (* L237 *)
  let rate_of_sink_max := e Mission_Landing_MAXIMUM_SINK_RATE in  (* L237 *)
  let mass := e Dynamic_Vehicle_MASS in  (* L237 *)
  let wing_area := e Aircraft_Wing_AREA in  (* L237 *)
  let glide_to_stall_ratio := e Mission_Landing_GLIDE_TO_STALL_RATIO in  (* L237 *)
  let CL_max := e v_CL_max in  (* L237 *)
  let landing_flare_load_factor := e Mission_Landing_MAXIMUM_FLARE_LOAD_FACTOR in  (* L237 *)
  let rate_of_sink_td := e Mission_Landing_TOUCHDOWN_SINK_RATE in  (* L237 *)
  let approach_alt := e Mission_Landing_INITIAL_ALTITUDE in  (* L237 *)
  let time_delay := e Mission_Landing_BRAKING_DELAY in  (* L237 *)
  let weight := mass * GRAV_ENGLISH_LBM in  (* L249 *)
  let G := grav_english in  (* L250 *)
  let wing_loading_land := weight / wing_area in  (* L252 *)
  let TAS_stall := sqrt (2 * wing_loading_land / (CL_max * rho_app)) in  (* L253 *)
  let TAS_glide := TAS_stall * glide_to_stall_ratio in  (* L254 *)
  let gamma_touchdown := rate_of_sink_td / TAS_glide in  (* L255 *)
  let touchdown_velocity_ratio := (glide_to_stall_ratio + 1) * (5 / 10) in  (* L256 *)
  let theta := asin (rate_of_sink_max / (60 * TAS_glide)) in  (* L257 *)
  let TAS_touchdown := touchdown_velocity_ratio * TAS_stall in  (* L258 *)
  let dTasStall_dWeight := (2 * (1 / wing_area) / (CL_max * rho_app)) ** (5 / 10) * (5 / 10) * weight ** (- 5 / 10) in  (* L260 *)
  let dTasStall_dWingArea := (2 * weight / (CL_max * rho_app)) ** (5 / 10) * (- 5 / 10) * wing_area ** (- 15 / 10) in  (* L263 *)
  let dTasStall_dClMax := (2 * wing_loading_land / rho_app) ** (5 / 10) * (- 5 / 10) * CL_max ** (- 15 / 10) in  (* L266 *)
  let dTasStall_dRhoApp := (2 * wing_loading_land / CL_max) ** (5 / 10) * (- 5 / 10) * rho_app ** (- 15 / 10) in  (* L267 *)
  let dTasGlide_dWeight := dTasStall_dWeight * glide_to_stall_ratio in  (* L268 *)
  let dTasTd_dWeight := touchdown_velocity_ratio * dTasStall_dWeight in  (* L269 *)
  let dTheta_dWeight := (1 - (rate_of_sink_max / (60 * TAS_glide)) ^ 2) ** (- 5 / 10) * (- rate_of_sink_max / (60 *
      TAS_glide ^ 2)) * dTasGlide_dWeight in  (* L270 *)
  let d_Landing_INITIAL_VELOCITY__Vehicle_MASS := dTasGlide_dWeight * GRAV_ENGLISH_LBM in  (* L276 *)
  let d_Landing_INITIAL_VELOCITY__Wing_AREA := dTasStall_dWingArea * glide_to_stall_ratio in  (* L279 *)
  let dTasGlide_dWingArea := d_Landing_INITIAL_VELOCITY__Wing_AREA in  (* L279 *)
  let d_Landing_INITIAL_VELOCITY__CL_max := dTasStall_dClMax * glide_to_stall_ratio in  (* L282 *)
  let dTasGlide_dClMax := d_Landing_INITIAL_VELOCITY__CL_max in  (* L282 *)
  let d_Landing_INITIAL_VELOCITY__Atmosphere_DENSITY := dTasStall_dRhoApp * glide_to_stall_ratio in  (* L285 *)
  let dTasGlide_dRhoApp := d_Landing_INITIAL_VELOCITY__Atmosphere_DENSITY in  (* L285 *)
  let d_Landing_INITIAL_VELOCITY__Landing_GLIDE_TO_STALL_RATIO := TAS_stall in  (* L288 *)
  let d_Landing_STALL_VELOCITY__Vehicle_MASS := dTasStall_dWeight * GRAV_ENGLISH_LBM in  (* L290 *)
  let d_Landing_STALL_VELOCITY__Wing_AREA := dTasStall_dWingArea in  (* L293 *)
  let d_Landing_STALL_VELOCITY__CL_max := dTasStall_dClMax in  (* L294 *)
  let d_Landing_STALL_VELOCITY__Atmosphere_DENSITY := dTasStall_dRhoApp in  (* L295 *)
  let d_TAS_touchdown__Landing_GLIDE_TO_STALL_RATIO := 5 / 10 * TAS_stall in  (* L297 *)
  let dTasTd_dGlideToStallRatio := d_TAS_touchdown__Landing_GLIDE_TO_STALL_RATIO in  (* L297 *)
  let d_TAS_touchdown__Vehicle_MASS := dTasTd_dWeight * GRAV_ENGLISH_LBM in  (* L300 *)
  let d_TAS_touchdown__Wing_AREA := touchdown_velocity_ratio * dTasStall_dWingArea in  (* L301 *)
  let dTasTd_dWingArea := d_TAS_touchdown__Wing_AREA in  (* L301 *)
  let d_TAS_touchdown__CL_max := touchdown_velocity_ratio * dTasStall_dClMax in  (* L304 *)
  let dTasTd_dClMax := d_TAS_touchdown__CL_max in  (* L304 *)
  let d_TAS_touchdown__Atmosphere_DENSITY := touchdown_velocity_ratio * dTasStall_dRhoApp in  (* L305 *)
  let dTasTd_dRhoApp := d_TAS_touchdown__Atmosphere_DENSITY in  (* L305 *)
  let rho_sea_level := on op Mission_SEA_LEVEL_DENSITY in  (* L309 *)
  let d_density_ratio__Atmosphere_DENSITY := 1 / rho_sea_level in  (* L310 *)
  let d_wing_loading_land__Vehicle_MASS := GRAV_ENGLISH_LBM / wing_area in  (* L312 *)
  let d_wing_loading_land__Wing_AREA := - weight / wing_area ^ 2 in  (* L313 *)
  let d_theta__Landing_MAXIMUM_SINK_RATE := (1 - (rate_of_sink_max / (60 * TAS_glide)) ^ 2) ** (- 5 / 10) * 1 / (60 *
      TAS_glide) in  (* L317 *)
  let dTheta_dRateOfSinkMax := d_theta__Landing_MAXIMUM_SINK_RATE in  (* L317 *)
  let d_theta__Vehicle_MASS := dTheta_dWeight * GRAV_ENGLISH_LBM in  (* L320 *)
  let d_theta__Wing_AREA := (1 - (rate_of_sink_max / (60 * TAS_glide)) ^ 2) ** (- 5 / 10) * (- rate_of_sink_max / (60
      * TAS_glide ^ 2)) * dTasGlide_dWingArea in  (* L321 *)
  let dTheta_dWingArea := d_theta__Wing_AREA in  (* L321 *)
  let d_theta__CL_max := (1 - (rate_of_sink_max / (60 * TAS_glide)) ^ 2) ** (- 5 / 10) * (- rate_of_sink_max / (60 *
      TAS_glide ^ 2)) * dTasGlide_dClMax in  (* L326 *)
  let dTheta_dClMax := d_theta__CL_max in  (* L326 *)
  let d_theta__Atmosphere_DENSITY := (1 - (rate_of_sink_max / (60 * TAS_glide)) ^ 2) ** (- 5 / 10) * (-
      rate_of_sink_max / (60 * TAS_glide ^ 2)) * dTasGlide_dRhoApp in  (* L331 *)
  let dTheta_dRhoApp := d_theta__Atmosphere_DENSITY in  (* L331 *)
  let d_theta__Landing_GLIDE_TO_STALL_RATIO := (1 - (rate_of_sink_max / (60 * TAS_glide)) ^ 2) ** (- 5 / 10) * (-
      rate_of_sink_max / (60 * TAS_glide ^ 2)) * TAS_stall in  (* L336 *)
  let dTheta_dGlideToStallRatio := d_theta__Landing_GLIDE_TO_STALL_RATIO in  (* L336 *)
  let d_glide_distance__Landing_INITIAL_ALTITUDE := 1 / tan theta in  (* L344 *)
  let d_glide_distance__Landing_MAXIMUM_SINK_RATE := - approach_alt / tan theta ^ 2 * (1 / cos theta) ^ 2 *
      dTheta_dRateOfSinkMax in  (* L345 *)
  let d_glide_distance__Vehicle_MASS := - approach_alt / tan theta ^ 2 * (1 / cos theta) ^ 2 * dTheta_dWeight *
      GRAV_ENGLISH_LBM in  (* L348 *)
  let d_glide_distance__Wing_AREA := - approach_alt / tan theta ^ 2 * (1 / cos theta) ^ 2 * dTheta_dWingArea in  (* L355 *)
  let d_glide_distance__CL_max := - approach_alt / tan theta ^ 2 * (1 / cos theta) ^ 2 * dTheta_dClMax in  (* L358 *)
  let d_glide_distance__Atmosphere_DENSITY := - approach_alt / tan theta ^ 2 * (1 / cos theta) ^ 2 * dTheta_dRhoApp in  (* L361 *)
  let d_glide_distance__Landing_GLIDE_TO_STALL_RATIO := - approach_alt / tan theta ^ 2 * (1 / cos theta) ^ 2 *
      dTheta_dGlideToStallRatio in  (* L364 *)
  let RZ := TAS_glide ^ 2 / G / (landing_flare_load_factor - 1) in  (* L371 *)
  let dRZ_dWeight := 2 * TAS_glide / G / (landing_flare_load_factor - 1) * dTasGlide_dWeight in  (* L373 *)
  let dRZ_dWingArea := 2 * TAS_glide / G / (landing_flare_load_factor - 1) * dTasGlide_dWingArea in  (* L374 *)
  let dRZ_dClMax := 2 * TAS_glide / G / (landing_flare_load_factor - 1) * dTasGlide_dClMax in  (* L375 *)
  let dRZ_dRhoApp := 2 * TAS_glide / G / (landing_flare_load_factor - 1) * dTasGlide_dRhoApp in  (* L376 *)
  let dRZ_dGlideToStallRatio := 2 * TAS_glide / G / (landing_flare_load_factor - 1) * TAS_stall in  (* L377 *)
  let dRZ_dLandingFlareLoadFactor := - TAS_glide ^ 2 / G / (landing_flare_load_factor - 1) ^ 2 in  (* L378 *)
  let gamma_touchdown := rate_of_sink_td / TAS_glide in  (* L380 *)
  let dGammaTd_dRateOfSinkTd := 1 / TAS_glide in  (* L382 *)
  let dGammaTd_dWeight := - rate_of_sink_td / TAS_glide ^ 2 * dTasGlide_dWeight in  (* L383 *)
  let dGammaTd_dWingArea := - rate_of_sink_td / TAS_glide ^ 2 * dTasGlide_dWingArea in  (* L384 *)
  let dGammaTd_dClMax := - rate_of_sink_td / TAS_glide ^ 2 * dTasGlide_dClMax in  (* L385 *)
  let dGammaTd_dRhoApp := - rate_of_sink_td / TAS_glide ^ 2 * dTasGlide_dRhoApp in  (* L386 *)
  let dGammaTd_dGlideToStallRatio := - rate_of_sink_td / TAS_glide ^ 2 * TAS_stall in  (* L387 *)
  let inter1 := RZ * theta / 2 in  (* L389 *)
  let dInter1_dLandingFlareLoadFactor := 5 / 10 * (dRZ_dLandingFlareLoadFactor * theta) in  (* L390 *)
  let dInter1_dRateOfSinkMax := 5 / 10 * (RZ * dTheta_dRateOfSinkMax) in  (* L391 *)
  let dInter1_dWeight := 5 / 10 * (dRZ_dWeight * theta + RZ * dTheta_dWeight) in  (* L392 *)
  let dInter1_dWingArea := 5 / 10 * (dRZ_dWingArea * theta + RZ * dTheta_dWingArea) in  (* L393 *)
  let dInter1_dClMax := 5 / 10 * (dRZ_dClMax * theta + RZ * dTheta_dClMax) in  (* L394 *)
  let dInter1_dRhoApp := 5 / 10 * (dRZ_dRhoApp * theta + RZ * dTheta_dRhoApp) in  (* L395 *)
  let dInter1_dGlideToStallRatio := 5 / 10 * (dRZ_dGlideToStallRatio * theta + RZ * dTheta_dGlideToStallRatio) in  (* L396 *)
  let inter2 := (1 - gamma_touchdown / theta) ^ 2 in  (* L400 *)
  let dInter2_dRateOfSinkMax := 2 * (1 - gamma_touchdown / theta) * gamma_touchdown / theta ^ 2 *
      dTheta_dRateOfSinkMax in  (* L401 *)
  let dInter2_dWeight := - 2 * (1 - gamma_touchdown / theta) * (theta * dGammaTd_dWeight - gamma_touchdown *
      dTheta_dWeight) / theta ^ 2 in  (* L404 *)
  let dInter2_dWingArea := - 2 * (1 - gamma_touchdown / theta) * (theta * dGammaTd_dWingArea - gamma_touchdown *
      dTheta_dWingArea) / theta ^ 2 in  (* L410 *)
  let dInter2_dClMax := - 2 * (1 - gamma_touchdown / theta) * (theta * dGammaTd_dClMax - gamma_touchdown *
      dTheta_dClMax) / theta ^ 2 in  (* L416 *)
  let dInter2_dRhoApp := - 2 * (1 - gamma_touchdown / theta) * (theta * dGammaTd_dRhoApp - gamma_touchdown *
      dTheta_dRhoApp) / theta ^ 2 in  (* L422 *)
  let dInter2_dGlideToStallRatio := - 2 * (1 - gamma_touchdown / theta) * (theta * dGammaTd_dGlideToStallRatio -
      gamma_touchdown * dTheta_dGlideToStallRatio) / theta ^ 2 in  (* L428 *)
  let dInter2_dRateOfSinkTd := - 2 * (1 - gamma_touchdown / theta) * dGammaTd_dRateOfSinkTd / theta in  (* L434 *)
  let d_tr_distance__Landing_MAXIMUM_FLARE_LOAD_FACTOR := dInter1_dLandingFlareLoadFactor * inter2 in  (* L438 *)
  let d_tr_distance__Landing_MAXIMUM_SINK_RATE := dInter1_dRateOfSinkMax * inter2 + inter1 * dInter2_dRateOfSinkMax in  (* L441 *)
  let d_tr_distance__Vehicle_MASS := (dInter1_dWeight * inter2 + inter1 * dInter2_dWeight) * GRAV_ENGLISH_LBM in  (* L444 *)
  let d_tr_distance__Wing_AREA := dInter1_dWingArea * inter2 + inter1 * dInter2_dWingArea in  (* L447 *)
  let d_tr_distance__CL_max := dInter1_dClMax * inter2 + inter1 * dInter2_dClMax in  (* L450 *)
  let d_tr_distance__Atmosphere_DENSITY := dInter1_dRhoApp * inter2 + inter1 * dInter2_dRhoApp in  (* L451 *)
  let d_tr_distance__Landing_GLIDE_TO_STALL_RATIO := dInter1_dGlideToStallRatio * inter2 + inter1 *
      dInter2_dGlideToStallRatio in  (* L454 *)
  let d_tr_distance__Landing_TOUCHDOWN_SINK_RATE := inter1 * dInter2_dRateOfSinkTd in  (* L457 *)
  let d_delay_distance__Landing_GLIDE_TO_STALL_RATIO := time_delay * dTasTd_dGlideToStallRatio in  (* L459 *)
  let d_delay_distance__Vehicle_MASS := time_delay * dTasTd_dWeight * GRAV_ENGLISH_LBM in  (* L462 *)
  let d_delay_distance__Wing_AREA := time_delay * dTasTd_dWingArea in  (* L463 *)
  let d_delay_distance__CL_max := time_delay * dTasTd_dClMax in  (* L464 *)
  let d_delay_distance__Atmosphere_DENSITY := time_delay * dTasTd_dRhoApp in  (* L465 *)
  let d_delay_distance__Landing_BRAKING_DELAY := TAS_touchdown in  (* L466 *)
  let d_flare_alt__Landing_MAXIMUM_FLARE_LOAD_FACTOR := - TAS_glide ^ 2 * (theta ^ 2 - gamma_touchdown ^ 2) / (2 * G *
      (landing_flare_load_factor - 1)) ^ 2 * 2 * G in  (* L467 *)
  let d_flare_alt__Landing_TOUCHDOWN_SINK_RATE := - 2 * TAS_glide ^ 2 * gamma_touchdown / (2 * G *
      (landing_flare_load_factor - 1)) * dGammaTd_dRateOfSinkTd in  (* L474 *)
  let d_flare_alt__Landing_MAXIMUM_SINK_RATE := 2 * TAS_glide ^ 2 * theta / (2 * G * (landing_flare_load_factor - 1))
      * dTheta_dRateOfSinkMax in  (* L481 *)
  let d_flare_alt__Vehicle_MASS := 1 / (2 * G * (landing_flare_load_factor - 1)) * (2 * TAS_glide * dTasGlide_dWeight
      * (theta ^ 2 - gamma_touchdown ^ 2) + TAS_glide ^ 2 * (2 * theta * dTheta_dWeight - 2 * gamma_touchdown *
      dGammaTd_dWeight)) * GRAV_ENGLISH_LBM in  (* L488 *)
  let d_flare_alt__Wing_AREA := 1 / (2 * G * (landing_flare_load_factor - 1)) * (2 * TAS_glide * dTasGlide_dWingArea *
      (theta ^ 2 - gamma_touchdown ^ 2) + TAS_glide ^ 2 * (2 * theta * dTheta_dWingArea - 2 * gamma_touchdown *
      dGammaTd_dWingArea)) in  (* L498 *)
  let d_flare_alt__CL_max := 1 / (2 * G * (landing_flare_load_factor - 1)) * (2 * TAS_glide * dTasGlide_dClMax *
      (theta ^ 2 - gamma_touchdown ^ 2) + TAS_glide ^ 2 * (2 * theta * dTheta_dClMax - 2 * gamma_touchdown *
      dGammaTd_dClMax)) in  (* L507 *)
  let d_flare_alt__Atmosphere_DENSITY := 1 / (2 * G * (landing_flare_load_factor - 1)) * (2 * TAS_glide *
      dTasGlide_dRhoApp * (theta ^ 2 - gamma_touchdown ^ 2) + TAS_glide ^ 2 * (2 * theta * dTheta_dRhoApp - 2 *
      gamma_touchdown * dGammaTd_dRhoApp)) in  (* L515 *)
  let d_flare_alt__Landing_GLIDE_TO_STALL_RATIO := 1 / (2 * G * (landing_flare_load_factor - 1)) * (2 * TAS_glide *
      TAS_stall * (theta ^ 2 - gamma_touchdown ^ 2) + TAS_glide ^ 2 * (2 * theta * dTheta_dGlideToStallRatio - 2 *
      gamma_touchdown * dGammaTd_dGlideToStallRatio)) in  (* L524 *)
  [(Mission_Landing_INITIAL_VELOCITY, Dynamic_Vehicle_MASS, d_Landing_INITIAL_VELOCITY__Vehicle_MASS);
   (Mission_Landing_INITIAL_VELOCITY, Aircraft_Wing_AREA, d_Landing_INITIAL_VELOCITY__Wing_AREA);
   (Mission_Landing_INITIAL_VELOCITY, v_CL_max, d_Landing_INITIAL_VELOCITY__CL_max);
   (Mission_Landing_INITIAL_VELOCITY, Dynamic_Atmosphere_DENSITY, d_Landing_INITIAL_VELOCITY__Atmosphere_DENSITY);
   (Mission_Landing_INITIAL_VELOCITY, Mission_Landing_GLIDE_TO_STALL_RATIO,
       d_Landing_INITIAL_VELOCITY__Landing_GLIDE_TO_STALL_RATIO);
   (Mission_Landing_STALL_VELOCITY, Dynamic_Vehicle_MASS, d_Landing_STALL_VELOCITY__Vehicle_MASS);
   (Mission_Landing_STALL_VELOCITY, Aircraft_Wing_AREA, d_Landing_STALL_VELOCITY__Wing_AREA);
   (Mission_Landing_STALL_VELOCITY, v_CL_max, d_Landing_STALL_VELOCITY__CL_max);
   (Mission_Landing_STALL_VELOCITY, Dynamic_Atmosphere_DENSITY, d_Landing_STALL_VELOCITY__Atmosphere_DENSITY);
   (v_TAS_touchdown, Mission_Landing_GLIDE_TO_STALL_RATIO, d_TAS_touchdown__Landing_GLIDE_TO_STALL_RATIO);
   (v_TAS_touchdown, Dynamic_Vehicle_MASS, d_TAS_touchdown__Vehicle_MASS);
   (v_TAS_touchdown, Aircraft_Wing_AREA, d_TAS_touchdown__Wing_AREA);
   (v_TAS_touchdown, v_CL_max, d_TAS_touchdown__CL_max);
   (v_TAS_touchdown, Dynamic_Atmosphere_DENSITY, d_TAS_touchdown__Atmosphere_DENSITY);
   (v_density_ratio, Dynamic_Atmosphere_DENSITY, d_density_ratio__Atmosphere_DENSITY);
   (v_wing_loading_land, Dynamic_Vehicle_MASS, d_wing_loading_land__Vehicle_MASS);
   (v_wing_loading_land, Aircraft_Wing_AREA, d_wing_loading_land__Wing_AREA);
   (v_theta, Mission_Landing_MAXIMUM_SINK_RATE, d_theta__Landing_MAXIMUM_SINK_RATE);
   (v_theta, Dynamic_Vehicle_MASS, d_theta__Vehicle_MASS);
   (v_theta, Aircraft_Wing_AREA, d_theta__Wing_AREA);
   (v_theta, v_CL_max, d_theta__CL_max);
   (v_theta, Dynamic_Atmosphere_DENSITY, d_theta__Atmosphere_DENSITY);
   (v_theta, Mission_Landing_GLIDE_TO_STALL_RATIO, d_theta__Landing_GLIDE_TO_STALL_RATIO);
   (v_glide_distance, Mission_Landing_INITIAL_ALTITUDE, d_glide_distance__Landing_INITIAL_ALTITUDE);
   (v_glide_distance, Mission_Landing_MAXIMUM_SINK_RATE, d_glide_distance__Landing_MAXIMUM_SINK_RATE);
   (v_glide_distance, Dynamic_Vehicle_MASS, d_glide_distance__Vehicle_MASS);
   (v_glide_distance, Aircraft_Wing_AREA, d_glide_distance__Wing_AREA);
   (v_glide_distance, v_CL_max, d_glide_distance__CL_max);
   (v_glide_distance, Dynamic_Atmosphere_DENSITY, d_glide_distance__Atmosphere_DENSITY);
   (v_glide_distance, Mission_Landing_GLIDE_TO_STALL_RATIO, d_glide_distance__Landing_GLIDE_TO_STALL_RATIO);
   (v_tr_distance, Mission_Landing_MAXIMUM_FLARE_LOAD_FACTOR, d_tr_distance__Landing_MAXIMUM_FLARE_LOAD_FACTOR);
   (v_tr_distance, Mission_Landing_MAXIMUM_SINK_RATE, d_tr_distance__Landing_MAXIMUM_SINK_RATE);
   (v_tr_distance, Dynamic_Vehicle_MASS, d_tr_distance__Vehicle_MASS);
   (v_tr_distance, Aircraft_Wing_AREA, d_tr_distance__Wing_AREA);
   (v_tr_distance, v_CL_max, d_tr_distance__CL_max);
   (v_tr_distance, Dynamic_Atmosphere_DENSITY, d_tr_distance__Atmosphere_DENSITY);
   (v_tr_distance, Mission_Landing_GLIDE_TO_STALL_RATIO, d_tr_distance__Landing_GLIDE_TO_STALL_RATIO);
   (v_tr_distance, Mission_Landing_TOUCHDOWN_SINK_RATE, d_tr_distance__Landing_TOUCHDOWN_SINK_RATE);
   (v_delay_distance, Mission_Landing_GLIDE_TO_STALL_RATIO, d_delay_distance__Landing_GLIDE_TO_STALL_RATIO);
   (v_delay_distance, Dynamic_Vehicle_MASS, d_delay_distance__Vehicle_MASS);
   (v_delay_distance, Aircraft_Wing_AREA, d_delay_distance__Wing_AREA);
   (v_delay_distance, v_CL_max, d_delay_distance__CL_max);
   (v_delay_distance, Dynamic_Atmosphere_DENSITY, d_delay_distance__Atmosphere_DENSITY);
   (v_delay_distance, Mission_Landing_BRAKING_DELAY, d_delay_distance__Landing_BRAKING_DELAY);
   (v_flare_alt, Mission_Landing_MAXIMUM_FLARE_LOAD_FACTOR, d_flare_alt__Landing_MAXIMUM_FLARE_LOAD_FACTOR);
   (v_flare_alt, Mission_Landing_TOUCHDOWN_SINK_RATE, d_flare_alt__Landing_TOUCHDOWN_SINK_RATE);
   (v_flare_alt, Mission_Landing_MAXIMUM_SINK_RATE, d_flare_alt__Landing_MAXIMUM_SINK_RATE);
   (v_flare_alt, Dynamic_Vehicle_MASS, d_flare_alt__Vehicle_MASS);
   (v_flare_alt, Aircraft_Wing_AREA, d_flare_alt__Wing_AREA);
   (v_flare_alt, v_CL_max, d_flare_alt__CL_max);
   (v_flare_alt, Dynamic_Atmosphere_DENSITY, d_flare_alt__Atmosphere_DENSITY);
   (v_flare_alt, Mission_Landing_GLIDE_TO_STALL_RATIO, d_flare_alt__Landing_GLIDE_TO_STALL_RATIO)].

(** Inputs, outputs and declared partials: /repo/aviary/mission/two_dof/ode/landing_eom.py L38-182 *)
Definition GlideConditionComponent (op : options) : comp := {|
  c_ins := [Dynamic_Atmosphere_DENSITY;
            Mission_Landing_MAXIMUM_SINK_RATE;
            Dynamic_Vehicle_MASS;
            Aircraft_Wing_AREA;
            Mission_Landing_GLIDE_TO_STALL_RATIO;
            v_CL_max;
            Mission_Landing_MAXIMUM_FLARE_LOAD_FACTOR;
            Mission_Landing_TOUCHDOWN_SINK_RATE;
            Mission_Landing_INITIAL_ALTITUDE;
            Mission_Landing_BRAKING_DELAY];
  c_outs := [Mission_Landing_INITIAL_VELOCITY;
             Mission_Landing_STALL_VELOCITY;
             v_TAS_touchdown;
             v_density_ratio;
             v_wing_loading_land;
             v_theta;
             v_glide_distance;
             v_tr_distance;
             v_delay_distance;
             v_flare_alt];
  c_decl := [(Mission_Landing_INITIAL_VELOCITY, Dynamic_Vehicle_MASS, 0);
             (Mission_Landing_INITIAL_VELOCITY, Aircraft_Wing_AREA, 0);
             (Mission_Landing_INITIAL_VELOCITY, v_CL_max, 0);
             (Mission_Landing_INITIAL_VELOCITY, Dynamic_Atmosphere_DENSITY, 0);
             (Mission_Landing_INITIAL_VELOCITY, Mission_Landing_GLIDE_TO_STALL_RATIO, 0);
             (Mission_Landing_STALL_VELOCITY, Dynamic_Vehicle_MASS, 0);
             (Mission_Landing_STALL_VELOCITY, Aircraft_Wing_AREA, 0);
             (Mission_Landing_STALL_VELOCITY, v_CL_max, 0);
             (Mission_Landing_STALL_VELOCITY, Dynamic_Atmosphere_DENSITY, 0);
             (v_TAS_touchdown, Mission_Landing_GLIDE_TO_STALL_RATIO, 0);
             (v_TAS_touchdown, Dynamic_Vehicle_MASS, 0);
             (v_TAS_touchdown, Aircraft_Wing_AREA, 0);
             (v_TAS_touchdown, v_CL_max, 0);
             (v_TAS_touchdown, Dynamic_Atmosphere_DENSITY, 0);
             (v_density_ratio, Dynamic_Atmosphere_DENSITY, 0);
             (v_wing_loading_land, Dynamic_Vehicle_MASS, 0);
             (v_wing_loading_land, Aircraft_Wing_AREA, 0);
             (v_theta, Mission_Landing_MAXIMUM_SINK_RATE, 0);
             (v_theta, Dynamic_Vehicle_MASS, 0);
             (v_theta, Aircraft_Wing_AREA, 0);
             (v_theta, v_CL_max, 0);
             (v_theta, Dynamic_Atmosphere_DENSITY, 0);
             (v_theta, Mission_Landing_GLIDE_TO_STALL_RATIO, 0);
             (v_glide_distance, Mission_Landing_INITIAL_ALTITUDE, 0);
             (v_glide_distance, Mission_Landing_MAXIMUM_SINK_RATE, 0);
             (v_glide_distance, Dynamic_Vehicle_MASS, 0);
             (v_glide_distance, Aircraft_Wing_AREA, 0);
             (v_glide_distance, v_CL_max, 0);
             (v_glide_distance, Dynamic_Atmosphere_DENSITY, 0);
             (v_glide_distance, Mission_Landing_GLIDE_TO_STALL_RATIO, 0);
             (v_tr_distance, Mission_Landing_MAXIMUM_FLARE_LOAD_FACTOR, 0);
             (v_tr_distance, Mission_Landing_TOUCHDOWN_SINK_RATE, 0);
             (v_tr_distance, Dynamic_Vehicle_MASS, 0);
             (v_tr_distance, Aircraft_Wing_AREA, 0);
             (v_tr_distance, v_CL_max, 0);
             (v_tr_distance, Dynamic_Atmosphere_DENSITY, 0);
             (v_tr_distance, Mission_Landing_GLIDE_TO_STALL_RATIO, 0);
             (v_tr_distance, Mission_Landing_MAXIMUM_SINK_RATE, 0);
             (v_delay_distance, Mission_Landing_GLIDE_TO_STALL_RATIO, 0);
             (v_delay_distance, Dynamic_Vehicle_MASS, 0);
             (v_delay_distance, Aircraft_Wing_AREA, 0);
             (v_delay_distance, v_CL_max, 0);
             (v_delay_distance, Dynamic_Atmosphere_DENSITY, 0);
             (v_delay_distance, Mission_Landing_BRAKING_DELAY, 0);
             (v_flare_alt, Mission_Landing_MAXIMUM_FLARE_LOAD_FACTOR, 0);
             (v_flare_alt, Mission_Landing_TOUCHDOWN_SINK_RATE, 0);
             (v_flare_alt, Mission_Landing_MAXIMUM_SINK_RATE, 0);
             (v_flare_alt, Dynamic_Vehicle_MASS, 0);
             (v_flare_alt, Aircraft_Wing_AREA, 0);
             (v_flare_alt, v_CL_max, 0);
             (v_flare_alt, Dynamic_Atmosphere_DENSITY, 0);
             (v_flare_alt, Mission_Landing_GLIDE_TO_STALL_RATIO, 0)];
  c_run := GlideConditionComponent_compute op; c_jac := GlideConditionComponent_partials op |}.

(** LandingGroundRollComponent.compute, /repo/aviary/mission/two_dof/ode/landing_eom.py L657-691 *)
Definition LandingGroundRollComponent_compute (op : options) (e : env) : list (string * R) :=
  let grav_english := on op Mission_GRAVITY in  (* L658 *)
  let touchdown_CD := e v_touchdown_CD in  (* L659 *)
  let touchdown_CL := e v_touchdown_CL in  (* L659 *)
  let TAS_stall := e Mission_Landing_STALL_VELOCITY in  (* L659 *)
  let TAS_touchdown := e v_TAS_touchdown in  (* L659 *)
  let thrust_idle := e v_thrust_idle in  (* L659 *)
  let density_ratio := e v_density_ratio in  (* L659 *)
  let wing_loading_land := e v_wing_loading_land in  (* L659 *)
  let glide_distance := e v_glide_distance in  (* L659 *)
  let tr_distance := e v_tr_distance in  (* L659 *)
  let delay_distance := e v_delay_distance in  (* L659 *)
  let CL_max := e v_CL_max in  (* L659 *)
  let mass := e Dynamic_Vehicle_MASS in  (* L659 *)
  let mu_landing := e Mission_Landing_BRAKING_FRICTION_COEFFICIENT in  (* L659 *)
  let weight := mass * GRAV_ENGLISH_LBM in  (* L675 *)
  let G := grav_english in  (* L676 *)
  let MUB := mu_landing in  (* L677 *)
  let DLRL := touchdown_CD - MUB * touchdown_CL in  (* L679 *)
  let ARAT := DLRL / (CL_max * (TAS_stall / TAS_touchdown) ^ 2) in  (* L680 *)
  let thrust_to_landing_weight_ratio := thrust_idle / weight in  (* L681 *)
  let FRAT := MUB - thrust_to_landing_weight_ratio in  (* L682 *)
  let ALN := ln (FRAT / (FRAT + ARAT)) in  (* L683 *)
  let ground_roll_distance := - 130287 / 10000 * wing_loading_land * ALN / (density_ratio * DLRL) in  (* L685 *)
  let total_distance := ground_roll_distance + tr_distance + delay_distance + glide_distance in  (* L686 *)
  let average_acceleration := TAS_touchdown ^ 2 / (ground_roll_distance * 2 * G) in  (* L687 *)
  let o_ground_roll_distance := ground_roll_distance in  (* L689 *)
  let o_Landing_GROUND_DISTANCE := total_distance in  (* L690 *)
  let o_average_acceleration := average_acceleration in  (* L691 *)
  [(v_ground_roll_distance, o_ground_roll_distance);
   (Mission_Landing_GROUND_DISTANCE, o_Landing_GROUND_DISTANCE);
   (v_average_acceleration, o_average_acceleration)].

(** LandingGroundRollComponent.compute_partials, /repo/aviary/mission/two_dof/ode/landing_eom.py L693-851 *)
Definition LandingGroundRollComponent_partials (op : options) (e : env) : list (string * string * R) :=
  let grav_english := on op Mission_GRAVITY in  (* L694 *)
  let touchdown_CD := e v_touchdown_CD in  (* L695 *)
  let touchdown_CL := e v_touchdown_CL in  (* L695 *)
  let TAS_stall := e Mission_Landing_STALL_VELOCITY in  (* L695 *)
  let TAS_touchdown := e v_TAS_touchdown in  (* L695 *)
  let thrust_idle := e v_thrust_idle in  (* L695 *)
  let density_ratio := e v_density_ratio in  (* L695 *)
  let wing_loading_land := e v_wing_loading_land in  (* L695 *)
  let glide_distance := e v_glide_distance in  (* L695 *)
  let tr_distance := e v_tr_distance in  (* L695 *)
  let delay_distance := e v_delay_distance in  (* L695 *)
  let CL_max := e v_CL_max in  (* L695 *)
  let mass := e Dynamic_Vehicle_MASS in  (* L695 *)
  let mu_landing := e Mission_Landing_BRAKING_FRICTION_COEFFICIENT in  (* L695 *)
  let weight := mass * GRAV_ENGLISH_LBM in  (* L710 *)
  let G := grav_english in  (* L711 *)
  let MUB := mu_landing in  (* L712 *)
  let DLRL := touchdown_CD - MUB * touchdown_CL in  (* L714 *)
  let ARAT := DLRL / (CL_max * (TAS_stall / TAS_touchdown) ^ 2) in  (* L715 *)
  let thrust_to_landing_weight_ratio := thrust_idle / weight in  (* L716 *)
  let FRAT := MUB - thrust_to_landing_weight_ratio in  (* L717 *)
  let ALN := ln (FRAT / (FRAT + ARAT)) in  (* L718 *)
  let dDLRL_dTouchdownCD := 1 in  (* L720 *)
  let dDLRL_dTouchdownCL := - MUB in  (* L721 *)
  let dDLRL_dMUB := - touchdown_CL in  (* L722 *)
  let dARAT_dTouchdownCD := dDLRL_dTouchdownCD / (CL_max * (TAS_stall / TAS_touchdown) ^ 2) in  (* L724 *)
  let dARAT_dTouchdownCL := dDLRL_dTouchdownCL / (CL_max * (TAS_stall / TAS_touchdown) ^ 2) in  (* L725 *)
  let dARAT_dMUB := dDLRL_dMUB / (CL_max * (TAS_stall / TAS_touchdown) ^ 2) in  (* L726 *)
  let dARAT_dClMax := - DLRL / (CL_max ^ 2 * (TAS_stall / TAS_touchdown) ^ 2) in  (* L727 *)
  let dARAT_dTasStall := - 2 * DLRL / (CL_max * (TAS_stall ^ 3 / TAS_touchdown ^ 2)) in  (* L728 *)
  let dARAT_dTasTouchdown := 2 * TAS_touchdown * DLRL / (CL_max * TAS_stall ^ 2) in  (* L729 *)
  let dFRAT_dThrustIdle := - 1 / weight in  (* L731 *)
  let dFRAT_dWeight := thrust_idle / weight ^ 2 in  (* L732 *)
  let dFRAT_dMUB := 1 in  (* L733 *)
  let dALN_dTouchdownCD := 1 / (FRAT / (FRAT + ARAT)) * (- FRAT / (FRAT + ARAT) ^ 2) * dARAT_dTouchdownCD in  (* L735 *)
  let dALN_dTouchdownCL := 1 / (FRAT / (FRAT + ARAT)) * (- FRAT / (FRAT + ARAT) ^ 2) * dARAT_dTouchdownCL in  (* L738 *)
  let dALN_dMUB := 1 / (FRAT / (FRAT + ARAT)) * (dFRAT_dMUB * (FRAT + ARAT) - FRAT * (dFRAT_dMUB + dARAT_dMUB)) /
      (FRAT + ARAT) ^ 2 in  (* L741 *)
  let dALN_dThrustIdle := 1 / (FRAT / (FRAT + ARAT)) * (FRAT + ARAT - FRAT) / (FRAT + ARAT) ^ 2 * dFRAT_dThrustIdle in  (* L747 *)
  let dALN_dWeight := 1 / (FRAT / (FRAT + ARAT)) * (FRAT + ARAT - FRAT) / (FRAT + ARAT) ^ 2 * dFRAT_dWeight in  (* L754 *)
  let dALN_dClMax := 1 / (FRAT / (FRAT + ARAT)) * (- FRAT / (FRAT + ARAT) ^ 2 * dARAT_dClMax) in  (* L757 *)
  let dALN_dTasStall := 1 / (FRAT / (FRAT + ARAT)) * (- FRAT / (FRAT + ARAT) ^ 2 * dARAT_dTasStall) in  (* L758 *)
  let dALN_dTasTouchdown := 1 / (FRAT / (FRAT + ARAT)) * (- FRAT / (FRAT + ARAT) ^ 2 * dARAT_dTasTouchdown) in  (* L759 *)
  let ground_roll_distance := - 130287 / 10000 * wing_loading_land * ALN / (density_ratio * DLRL) in  (* L763 *)
  let dGRD_dWeight := - 130287 / 10000 * wing_loading_land * dALN_dWeight / (density_ratio * DLRL) in  (* L764 *)
  let d_ground_roll_distance__wing_loading_land := - 130287 / 10000 * ALN / (density_ratio * DLRL) in  (* L766 *)
  let dGRD_dWingLoadingLand := d_ground_roll_distance__wing_loading_land in  (* L766 *)
  let d_ground_roll_distance__density_ratio := 130287 / 10000 * wing_loading_land * ALN / (density_ratio ^ 2 * DLRL)
      in  (* L769 *)
  let dGRD_dDensityRatio := d_ground_roll_distance__density_ratio in  (* L769 *)
  let d_ground_roll_distance__touchdown_CD := - 130287 / 10000 * (wing_loading_land / density_ratio) * (DLRL *
      dALN_dTouchdownCD - ALN * dDLRL_dTouchdownCD) / DLRL ^ 2 in  (* L772 *)
  let dGRD_dTouchdownCD := d_ground_roll_distance__touchdown_CD in  (* L772 *)
  let d_ground_roll_distance__touchdown_CL := - 130287 / 10000 * (wing_loading_land / density_ratio) * (DLRL *
      dALN_dTouchdownCL - ALN * dDLRL_dTouchdownCL) / DLRL ^ 2 in  (* L778 *)
  let dGRD_dTouchdownCL := d_ground_roll_distance__touchdown_CL in  (* L778 *)
  let d_ground_roll_distance__Landing_BRAKING_FRICTION_COEFFICIENT := - 130287 / 10000 * (wing_loading_land /
      density_ratio) * (DLRL * dALN_dMUB - ALN * dDLRL_dMUB) / DLRL ^ 2 in  (* L784 *)
  let dGRD_dMUB := d_ground_roll_distance__Landing_BRAKING_FRICTION_COEFFICIENT in  (* L784 *)
  let d_ground_roll_distance__thrust_idle := - 130287 / 10000 * wing_loading_land * dALN_dThrustIdle / (density_ratio
      * DLRL) in  (* L790 *)
  let dGRD_dThrustIdle := d_ground_roll_distance__thrust_idle in  (* L790 *)
  let d_ground_roll_distance__Vehicle_MASS := dGRD_dWeight * GRAV_ENGLISH_LBM in  (* L793 *)
  let d_ground_roll_distance__CL_max := - 130287 / 10000 * wing_loading_land * dALN_dClMax / (density_ratio * DLRL) in  (* L794 *)
  let dGRD_dClMax := d_ground_roll_distance__CL_max in  (* L794 *)
  let d_ground_roll_distance__Landing_STALL_VELOCITY := - 130287 / 10000 * wing_loading_land * dALN_dTasStall /
      (density_ratio * DLRL) in  (* L797 *)
  let dGRD_dTasStall := d_ground_roll_distance__Landing_STALL_VELOCITY in  (* L797 *)
  let d_ground_roll_distance__TAS_touchdown := - 130287 / 10000 * wing_loading_land * dALN_dTasTouchdown /
      (density_ratio * DLRL) in  (* L800 *)
  let dGRD_dTasTouchdown := d_ground_roll_distance__TAS_touchdown in  (* L800 *)
  let d_Landing_GROUND_DISTANCE__wing_loading_land := dGRD_dWingLoadingLand in  (* L804 *)
  let d_Landing_GROUND_DISTANCE__density_ratio := dGRD_dDensityRatio in  (* L805 *)
  let d_Landing_GROUND_DISTANCE__touchdown_CD := dGRD_dTouchdownCD in  (* L806 *)
  let d_Landing_GROUND_DISTANCE__touchdown_CL := dGRD_dTouchdownCL in  (* L807 *)
  let d_Landing_GROUND_DISTANCE__Landing_BRAKING_FRICTION_COEFFICIENT := dGRD_dMUB in  (* L808 *)
  let d_Landing_GROUND_DISTANCE__thrust_idle := dGRD_dThrustIdle in  (* L809 *)
  let d_Landing_GROUND_DISTANCE__Vehicle_MASS := dGRD_dWeight * GRAV_ENGLISH_LBM in  (* L810 *)
  let d_Landing_GROUND_DISTANCE__CL_max := dGRD_dClMax in  (* L811 *)
  let d_Landing_GROUND_DISTANCE__Landing_STALL_VELOCITY := dGRD_dTasStall in  (* L812 *)
  let d_Landing_GROUND_DISTANCE__TAS_touchdown := dGRD_dTasTouchdown in  (* L813 *)
  let d_Landing_GROUND_DISTANCE__tr_distance := 1 in  (* L814 *)
  let d_Landing_GROUND_DISTANCE__delay_distance := 1 in  (* L815 *)
  let d_Landing_GROUND_DISTANCE__glide_distance := 1 in  (* L816 *)
  let d_average_acceleration__wing_loading_land := - TAS_touchdown ^ 2 / (ground_roll_distance ^ 2 * 2 * G) *
      dGRD_dWingLoadingLand in  (* L818 *)
  let d_average_acceleration__density_ratio := - TAS_touchdown ^ 2 / (ground_roll_distance ^ 2 * 2 * G) *
      dGRD_dDensityRatio in  (* L821 *)
  let d_average_acceleration__touchdown_CD := - TAS_touchdown ^ 2 / (ground_roll_distance ^ 2 * 2 * G) *
      dGRD_dTouchdownCD in  (* L824 *)
  let d_average_acceleration__touchdown_CL := - TAS_touchdown ^ 2 / (ground_roll_distance ^ 2 * 2 * G) *
      dGRD_dTouchdownCL in  (* L827 *)
  let d_average_acceleration__Landing_BRAKING_FRICTION_COEFFICIENT := - TAS_touchdown ^ 2 / (ground_roll_distance ^ 2
      * 2 * G) * dGRD_dMUB in  (* L830 *)
  let d_average_acceleration__thrust_idle := - TAS_touchdown ^ 2 / (ground_roll_distance ^ 2 * 2 * G) *
      dGRD_dThrustIdle in  (* L833 *)
  let d_average_acceleration__Vehicle_MASS := - TAS_touchdown ^ 2 / (ground_roll_distance ^ 2 * 2 * G) * dGRD_dWeight
      * GRAV_ENGLISH_LBM in  (* L836 *)
  let d_average_acceleration__CL_max := - TAS_touchdown ^ 2 / (ground_roll_distance ^ 2 * 2 * G) * dGRD_dClMax in  (* L842 *)
  let d_average_acceleration__Landing_STALL_VELOCITY := - TAS_touchdown ^ 2 / (ground_roll_distance ^ 2 * 2 * G) *
      dGRD_dTasStall in  (* L845 *)
  let d_average_acceleration__TAS_touchdown := (ground_roll_distance * 2 * G * 2 * TAS_touchdown - TAS_touchdown ^ 2 *
      2 * G * dGRD_dTasTouchdown) / (ground_roll_distance * 2 * G) ^ 2 in  (* L848 *)
  [(v_ground_roll_distance, v_wing_loading_land, d_ground_roll_distance__wing_loading_land);
   (v_ground_roll_distance, v_density_ratio, d_ground_roll_distance__density_ratio);
   (v_ground_roll_distance, v_touchdown_CD, d_ground_roll_distance__touchdown_CD);
   (v_ground_roll_distance, v_touchdown_CL, d_ground_roll_distance__touchdown_CL);
   (v_ground_roll_distance, Mission_Landing_BRAKING_FRICTION_COEFFICIENT,
       d_ground_roll_distance__Landing_BRAKING_FRICTION_COEFFICIENT);
   (v_ground_roll_distance, v_thrust_idle, d_ground_roll_distance__thrust_idle);
   (v_ground_roll_distance, Dynamic_Vehicle_MASS, d_ground_roll_distance__Vehicle_MASS);
   (v_ground_roll_distance, v_CL_max, d_ground_roll_distance__CL_max);
   (v_ground_roll_distance, Mission_Landing_STALL_VELOCITY, d_ground_roll_distance__Landing_STALL_VELOCITY);
   (v_ground_roll_distance, v_TAS_touchdown, d_ground_roll_distance__TAS_touchdown);
   (Mission_Landing_GROUND_DISTANCE, v_wing_loading_land, d_Landing_GROUND_DISTANCE__wing_loading_land);
   (Mission_Landing_GROUND_DISTANCE, v_density_ratio, d_Landing_GROUND_DISTANCE__density_ratio);
   (Mission_Landing_GROUND_DISTANCE, v_touchdown_CD, d_Landing_GROUND_DISTANCE__touchdown_CD);
   (Mission_Landing_GROUND_DISTANCE, v_touchdown_CL, d_Landing_GROUND_DISTANCE__touchdown_CL);
   (Mission_Landing_GROUND_DISTANCE, Mission_Landing_BRAKING_FRICTION_COEFFICIENT,
       d_Landing_GROUND_DISTANCE__Landing_BRAKING_FRICTION_COEFFICIENT);
   (Mission_Landing_GROUND_DISTANCE, v_thrust_idle, d_Landing_GROUND_DISTANCE__thrust_idle);
   (Mission_Landing_GROUND_DISTANCE, Dynamic_Vehicle_MASS, d_Landing_GROUND_DISTANCE__Vehicle_MASS);
   (Mission_Landing_GROUND_DISTANCE, v_CL_max, d_Landing_GROUND_DISTANCE__CL_max);
   (Mission_Landing_GROUND_DISTANCE, Mission_Landing_STALL_VELOCITY,
       d_Landing_GROUND_DISTANCE__Landing_STALL_VELOCITY);
   (Mission_Landing_GROUND_DISTANCE, v_TAS_touchdown, d_Landing_GROUND_DISTANCE__TAS_touchdown);
   (Mission_Landing_GROUND_DISTANCE, v_tr_distance, d_Landing_GROUND_DISTANCE__tr_distance);
   (Mission_Landing_GROUND_DISTANCE, v_delay_distance, d_Landing_GROUND_DISTANCE__delay_distance);
   (Mission_Landing_GROUND_DISTANCE, v_glide_distance, d_Landing_GROUND_DISTANCE__glide_distance);
   (v_average_acceleration, v_wing_loading_land, d_average_acceleration__wing_loading_land);
   (v_average_acceleration, v_density_ratio, d_average_acceleration__density_ratio);
   (v_average_acceleration, v_touchdown_CD, d_average_acceleration__touchdown_CD);
   (v_average_acceleration, v_touchdown_CL, d_average_acceleration__touchdown_CL);
   (v_average_acceleration, Mission_Landing_BRAKING_FRICTION_COEFFICIENT,
       d_average_acceleration__Landing_BRAKING_FRICTION_COEFFICIENT);
   (v_average_acceleration, v_thrust_idle, d_average_acceleration__thrust_idle);
   (v_average_acceleration, Dynamic_Vehicle_MASS, d_average_acceleration__Vehicle_MASS);
   (v_average_acceleration, v_CL_max, d_average_acceleration__CL_max);
   (v_average_acceleration, Mission_Landing_STALL_VELOCITY, d_average_acceleration__Landing_STALL_VELOCITY);
   (v_average_acceleration, v_TAS_touchdown, d_average_acceleration__TAS_touchdown)].

(** Inputs, outputs and declared partials: /repo/aviary/mission/two_dof/ode/landing_eom.py L544-655 *)
Definition LandingGroundRollComponent (op : options) : comp := {|
  c_ins := [v_touchdown_CD;
            v_touchdown_CL;
            Mission_Landing_STALL_VELOCITY;
            v_TAS_touchdown;
            v_thrust_idle;
            v_density_ratio;
            v_wing_loading_land;
            v_glide_distance;
            v_tr_distance;
            v_delay_distance;
            v_CL_max;
            Dynamic_Vehicle_MASS;
            Mission_Landing_BRAKING_FRICTION_COEFFICIENT];
  c_outs := [v_ground_roll_distance;
             Mission_Landing_GROUND_DISTANCE;
             v_average_acceleration];
  c_decl := [(v_ground_roll_distance, v_wing_loading_land, 0);
             (v_ground_roll_distance, v_density_ratio, 0);
             (v_ground_roll_distance, v_touchdown_CD, 0);
             (v_ground_roll_distance, v_touchdown_CL, 0);
             (v_ground_roll_distance, Mission_Landing_BRAKING_FRICTION_COEFFICIENT, 0);
             (v_ground_roll_distance, v_thrust_idle, 0);
             (v_ground_roll_distance, Dynamic_Vehicle_MASS, 0);
             (v_ground_roll_distance, v_CL_max, 0);
             (v_ground_roll_distance, Mission_Landing_STALL_VELOCITY, 0);
             (v_ground_roll_distance, v_TAS_touchdown, 0);
             (Mission_Landing_GROUND_DISTANCE, v_wing_loading_land, 0);
             (Mission_Landing_GROUND_DISTANCE, v_density_ratio, 0);
             (Mission_Landing_GROUND_DISTANCE, v_touchdown_CD, 0);
             (Mission_Landing_GROUND_DISTANCE, v_touchdown_CL, 0);
             (Mission_Landing_GROUND_DISTANCE, Mission_Landing_BRAKING_FRICTION_COEFFICIENT, 0);
             (Mission_Landing_GROUND_DISTANCE, v_thrust_idle, 0);
             (Mission_Landing_GROUND_DISTANCE, Dynamic_Vehicle_MASS, 0);
             (Mission_Landing_GROUND_DISTANCE, v_CL_max, 0);
             (Mission_Landing_GROUND_DISTANCE, Mission_Landing_STALL_VELOCITY, 0);
             (Mission_Landing_GROUND_DISTANCE, v_TAS_touchdown, 0);
             (Mission_Landing_GROUND_DISTANCE, v_tr_distance, 0);
             (Mission_Landing_GROUND_DISTANCE, v_delay_distance, 0);
             (Mission_Landing_GROUND_DISTANCE, v_glide_distance, 0);
             (v_average_acceleration, v_TAS_touchdown, 0);
             (v_average_acceleration, v_wing_loading_land, 0);
             (v_average_acceleration, v_density_ratio, 0);
             (v_average_acceleration, v_touchdown_CD, 0);
             (v_average_acceleration, v_touchdown_CL, 0);
             (v_average_acceleration, v_thrust_idle, 0);
             (v_average_acceleration, Dynamic_Vehicle_MASS, 0);
             (v_average_acceleration, v_CL_max, 0);
             (v_average_acceleration, Mission_Landing_STALL_VELOCITY, 0);
             (v_average_acceleration, Mission_Landing_BRAKING_FRICTION_COEFFICIENT, 0)];
  c_run := LandingGroundRollComponent_compute op; c_jac := LandingGroundRollComponent_partials op |}.
