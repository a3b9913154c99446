(** Two-degree-of-freedom equations of motion: /repo/aviary/mission/two_dof/ode and
    /repo/aviary/mission/solved_two_dof/ode.

    The option ground_roll decides which variables exist, so each value of it is its own component.  LBF_TO_N is
    computed by the units library; it is an option here, any value.

    Generated by tools/py2coq.py from the source text; see the header of that file for the rules.  Decimal
    literals are exact and numbers are real numbers. *)
From Coq Require Import Reals.
From Verif Require Import Base Comp.
Open Scope list_scope.
Open Scope string_scope.
Local Open Scope R_scope.

(** ** Variable names, /repo/aviary/variable_info/variables.py *)
Definition Aircraft_Wing_AREA := "aircraft:wing:area".
Definition Aircraft_Wing_INCIDENCE := "aircraft:wing:incidence".
Definition Dynamic_Atmosphere_DENSITY := "density".
Definition Dynamic_Mission_ALTITUDE_RATE := "altitude_rate".
Definition Dynamic_Mission_DISTANCE_RATE := "distance_rate".
Definition Dynamic_Mission_FLIGHT_PATH_ANGLE := "flight_path_angle".
Definition Dynamic_Mission_FLIGHT_PATH_ANGLE_RATE := "flight_path_angle_rate".
Definition Dynamic_Mission_VELOCITY := "velocity".
Definition Dynamic_Mission_VELOCITY_RATE := "velocity_rate".
Definition Dynamic_Vehicle_ANGLE_OF_ATTACK := "angle_of_attack".
Definition Dynamic_Vehicle_DRAG := "drag".
Definition Dynamic_Vehicle_LIFT := "lift".
Definition Dynamic_Vehicle_MASS := "mass".
Definition Dynamic_Vehicle_Propulsion_FUEL_MASS_FLOW_RATE_NEGATIVE_TOTAL := "fuel_flow_rate_negative_total".
Definition Dynamic_Vehicle_Propulsion_THRUST_TOTAL := "thrust_net_total".
Definition Mission_GRAVITY := "mission:gravity".
Definition Mission_GROSS_MASS := "mission:gross_mass".
Definition Mission_Takeoff_ROLLING_FRICTION_COEFFICIENT := "mission:takeoff:rolling_friction_coefficient".
Definition Mission_Taxi_DURATION := "mission:taxi:duration".
Definition v_CL_max := "CL_max".
Definition v_LBF_TO_N := "LBF_TO_N".
Definition v_ROC := "ROC".
Definition v_TAS_min := "TAS_min".
Definition v_TAS_violation := "TAS_violation".
Definition v_Vrot := "Vrot".
Definition v_angle_of_attack_rate := "angle_of_attack_rate".
Definition v_d2h_dr2 := "d2h_dr2".
Definition v_dTAS_dt := "dTAS_dt".
Definition v_dV1 := "dV1".
Definition v_dVR := "dVR".
Definition v_dgam_dr := "dgam_dr".
Definition v_dgam_dt := "dgam_dt".
Definition v_dgam_dt_approx := "dgam_dt_approx".
Definition v_dh_dr := "dh_dr".
Definition v_dt_dr := "dt_dr".
Definition v_fuselage_pitch := "fuselage_pitch".
Definition v_load_factor := "load_factor".
Definition v_normal_force := "normal_force".
Definition v_num_nodes := "num_nodes".
Definition v_required_lift := "required_lift".
Definition v_rotation := "rotation".
Definition v_rotation_pitch_rate := "rotation_pitch_rate".
Definition v_taxi_fuel_consumed := "taxi_fuel_consumed".
Definition v_theta := "theta".


(** GammaComp.compute, /repo/aviary/mission/solved_two_dof/ode/gamma_comp.py L53-58 *)
Definition GammaComp_compute (op : options) (e : env) : list (string * R) :=
  let dh_dr := e v_dh_dr in  (* L54 *)
  let d2h_dr2 := e v_d2h_dr2 in  (* L55 *)
  let o_Mission_FLIGHT_PATH_ANGLE := atan dh_dr in  (* L57 *)
  let o_dgam_dr := d2h_dr2 / (dh_dr ^ 2 + 1) in  (* L58 *)
  [(Dynamic_Mission_FLIGHT_PATH_ANGLE, o_Mission_FLIGHT_PATH_ANGLE);
   (v_dgam_dr, o_dgam_dr)].

(** GammaComp.compute_partials, /repo/aviary/mission/solved_two_dof/ode/gamma_comp.py L60-66 *)
Definition GammaComp_partials (op : options) (e : env) : list (string * string * R) :=
  let dh_dr := e v_dh_dr in  (* L61 *)
  let d2h_dr2 := e v_d2h_dr2 in  (* L62 *)
  let d_Mission_FLIGHT_PATH_ANGLE__dh_dr := 1 / (dh_dr ^ 2 + 1) in  (* L64 *)
  let d_dgam_dr__dh_dr := - d2h_dr2 * dh_dr * 2 / (dh_dr ^ 2 + 1) ^ 2 in  (* L65 *)
  let d_dgam_dr__d2h_dr2 := 1 / (dh_dr ^ 2 + 1) in  (* L66 *)
  [(Dynamic_Mission_FLIGHT_PATH_ANGLE, v_dh_dr, d_Mission_FLIGHT_PATH_ANGLE__dh_dr);
   (v_dgam_dr, v_dh_dr, d_dgam_dr__dh_dr);
   (v_dgam_dr, v_d2h_dr2, d_dgam_dr__d2h_dr2)].

(** Inputs, outputs and declared partials: /repo/aviary/mission/solved_two_dof/ode/gamma_comp.py L17-51 *)
Definition GammaComp (op : options) : comp := {|
  c_ins := [v_dh_dr;
            v_d2h_dr2];
  c_outs := [Dynamic_Mission_FLIGHT_PATH_ANGLE;
             v_dgam_dr];
  c_decl := [(Dynamic_Mission_FLIGHT_PATH_ANGLE, v_dh_dr, 0);
             (v_dgam_dr, v_dh_dr, 0);
             (v_dgam_dr, v_d2h_dr2, 0)];
  c_run := GammaComp_compute op; c_jac := GammaComp_partials op |}.

(** The inputs that are scalars, shared by all nodes. *)
Definition GammaComp_shared : list string := [].

(** GroundrollEOM.compute, /repo/aviary/mission/solved_two_dof/ode/groundroll_eom.py L137-174 *)
Definition GroundrollEOM_compute (op : options) (e : env) : list (string * R) :=
  let grav_english := on op Mission_GRAVITY in  (* L138 *)
  let mu := e Mission_Takeoff_ROLLING_FRICTION_COEFFICIENT in  (* L140 *)
  let weight := e Dynamic_Vehicle_MASS * GRAV_ENGLISH_LBM in  (* L141 *)
  let thrust := e Dynamic_Vehicle_Propulsion_THRUST_TOTAL in  (* L142 *)
  let incremented_lift := e Dynamic_Vehicle_LIFT in  (* L143 *)
  let incremented_drag := e Dynamic_Vehicle_DRAG in  (* L144 *)
  let TAS := e Dynamic_Mission_VELOCITY in  (* L145 *)
  let gamma := e Dynamic_Mission_FLIGHT_PATH_ANGLE in  (* L146 *)
  let i_wing := e Aircraft_Wing_INCIDENCE in  (* L147 *)
  let alpha := e Dynamic_Vehicle_ANGLE_OF_ATTACK in  (* L148 *)
  let nn := on op v_num_nodes in  (* L150 *)
  let thrust_along_flightpath := thrust * cos ((alpha - i_wing) * PI / 180) in  (* L152 *)
  let thrust_across_flightpath := thrust * sin ((alpha - i_wing) * PI / 180) in  (* L153 *)
  let normal_force := weight - incremented_lift - thrust_across_flightpath in  (* L154 *)
  let normal_force := if ltb normal_force 0 then 0 else normal_force in  (* L155 *)
  let o_Mission_VELOCITY_RATE := (thrust_along_flightpath - incremented_drag - weight * sin gamma - mu * normal_force)
      * grav_english / weight in  (* L157 *)
  let o_Mission_FLIGHT_PATH_ANGLE_RATE := 0 in  (* L167 *)
  let o_Mission_ALTITUDE_RATE := TAS * sin gamma in  (* L169 *)
  let o_Mission_DISTANCE_RATE := TAS * cos gamma in  (* L170 *)
  let o_normal_force := normal_force in  (* L171 *)
  let o_fuselage_pitch := gamma * 180 / PI - i_wing + alpha in  (* L173 *)
  let o_angle_of_attack_rate := 0 in  (* L174 *)
  [(Dynamic_Mission_VELOCITY_RATE, o_Mission_VELOCITY_RATE);
   (Dynamic_Mission_FLIGHT_PATH_ANGLE_RATE, o_Mission_FLIGHT_PATH_ANGLE_RATE);
   (Dynamic_Mission_ALTITUDE_RATE, o_Mission_ALTITUDE_RATE);
   (Dynamic_Mission_DISTANCE_RATE, o_Mission_DISTANCE_RATE);
   (v_normal_force, o_normal_force);
   (v_fuselage_pitch, o_fuselage_pitch);
   (v_angle_of_attack_rate, o_angle_of_attack_rate)].

(** GroundrollEOM.compute_partials, /repo/aviary/mission/solved_two_dof/ode/groundroll_eom.py L176-264 *)
Definition GroundrollEOM_partials (op : options) (e : env) : list (string * string * R) :=
  let grav_english := on op Mission_GRAVITY in  (* L177 *)
  let mu := e Mission_Takeoff_ROLLING_FRICTION_COEFFICIENT in  (* L179 *)
  let weight := e Dynamic_Vehicle_MASS * GRAV_ENGLISH_LBM in  (* L180 *)
  let thrust := e Dynamic_Vehicle_Propulsion_THRUST_TOTAL in  (* L181 *)
  let incremented_lift := e Dynamic_Vehicle_LIFT in  (* L182 *)
  let incremented_drag := e Dynamic_Vehicle_DRAG in  (* L183 *)
  let TAS := e Dynamic_Mission_VELOCITY in  (* L184 *)
  let gamma := e Dynamic_Mission_FLIGHT_PATH_ANGLE in  (* L185 *)
  let i_wing := e Aircraft_Wing_INCIDENCE in  (* L186 *)
  let alpha := e Dynamic_Vehicle_ANGLE_OF_ATTACK in  (* L187 *)
  let nn := on op v_num_nodes in  (* L189 *)
  let thrust_along_flightpath := thrust * cos ((alpha - i_wing) * PI / 180) in  (* L191 *)
  let thrust_across_flightpath := thrust * sin ((alpha - i_wing) * PI / 180) in  (* L192 *)
  let dTAlF_dThrust := cos ((alpha - i_wing) * PI / 180) in  (* L194 *)
  let dTAlF_dAlpha := - thrust * sin ((alpha - i_wing) * PI / 180) * PI / 180 in  (* L195 *)
  let dTAlF_dIwing := thrust * sin ((alpha - i_wing) * PI / 180) * PI / 180 in  (* L196 *)
  let dTAcF_dThrust := sin ((alpha - i_wing) * PI / 180) in  (* L198 *)
  let dTAcF_dAlpha := thrust * cos ((alpha - i_wing) * PI / 180) * PI / 180 in  (* L199 *)
  let dTAcF_dIwing := - thrust * cos ((alpha - i_wing) * PI / 180) * PI / 180 in  (* L200 *)
  let normal_force1 := weight - incremented_lift - thrust_across_flightpath in  (* L202 *)
  let normal_force := if ltb normal_force1 0 then 0 else normal_force1 in  (* L203 *)
  let dNF_dWeight := 1 in  (* L205 *)
  let dNF_dWeight := if ltb normal_force1 0 then 0 else dNF_dWeight in  (* L206 *)
  let dNF_dLift := - 1 in  (* L208 *)
  let dNF_dLift := if ltb normal_force1 0 then 0 else dNF_dLift in  (* L209 *)
  let dNF_dThrust := - 1 * dTAcF_dThrust in  (* L211 *)
  let dNF_dThrust := if ltb normal_force1 0 then 0 else dNF_dThrust in  (* L212 *)
  let dNF_dAlpha := - 1 * dTAcF_dAlpha in  (* L214 *)
  let dNF_dAlpha := if ltb normal_force1 0 then 0 else dNF_dAlpha in  (* L215 *)
  let dNF_dIwing := - 1 * dTAcF_dIwing in  (* L217 *)
  let dNF_dIwing := if ltb normal_force1 0 then 0 else dNF_dIwing in  (* L218 *)
  let d_Mission_VELOCITY_RATE__Vehicle_Propulsion_THRUST_TOTAL := (dTAlF_dThrust - mu * dNF_dThrust) * grav_english /
      weight in  (* L220 *)
  let d_Mission_VELOCITY_RATE__Vehicle_ANGLE_OF_ATTACK := (dTAlF_dAlpha - mu * dNF_dAlpha) * grav_english / weight in  (* L223 *)
  let d_Mission_VELOCITY_RATE__Wing_INCIDENCE := (dTAlF_dIwing - mu * dNF_dIwing) * grav_english / weight in  (* L226 *)
  let d_Mission_VELOCITY_RATE__Vehicle_DRAG := - grav_english / weight in  (* L229 *)
  let d_Mission_VELOCITY_RATE__Vehicle_MASS := grav_english * GRAV_ENGLISH_LBM * (weight * (- sin gamma - mu *
      dNF_dWeight) - (thrust_along_flightpath - incremented_drag - weight * sin gamma - mu * normal_force)) / weight ^
      2 in  (* L230 *)
  let d_Mission_VELOCITY_RATE__Mission_FLIGHT_PATH_ANGLE := - cos gamma * grav_english in  (* L244 *)
  let d_Mission_VELOCITY_RATE__Vehicle_LIFT := grav_english * (- mu * dNF_dLift) / weight in  (* L247 *)
  let d_Mission_VELOCITY_RATE__Takeoff_ROLLING_FRICTION_COEFFICIENT := - normal_force * grav_english / weight in  (* L250 *)
  let d_Mission_ALTITUDE_RATE__Mission_VELOCITY := sin gamma in  (* L254 *)
  let d_Mission_ALTITUDE_RATE__Mission_FLIGHT_PATH_ANGLE := TAS * cos gamma in  (* L255 *)
  let d_Mission_DISTANCE_RATE__Mission_VELOCITY := cos gamma in  (* L257 *)
  let d_Mission_DISTANCE_RATE__Mission_FLIGHT_PATH_ANGLE := - TAS * sin gamma in  (* L258 *)
  let d_normal_force__Vehicle_MASS := dNF_dWeight * GRAV_ENGLISH_LBM in  (* L260 *)
  let d_normal_force__Vehicle_LIFT := dNF_dLift in  (* L261 *)
  let d_normal_force__Vehicle_Propulsion_THRUST_TOTAL := dNF_dThrust in  (* L262 *)
  let d_normal_force__Vehicle_ANGLE_OF_ATTACK := dNF_dAlpha in  (* L263 *)
  let d_normal_force__Wing_INCIDENCE := dNF_dIwing in  (* L264 *)
  [(Dynamic_Mission_VELOCITY_RATE, Dynamic_Vehicle_Propulsion_THRUST_TOTAL,
      d_Mission_VELOCITY_RATE__Vehicle_Propulsion_THRUST_TOTAL);
   (Dynamic_Mission_VELOCITY_RATE, Dynamic_Vehicle_ANGLE_OF_ATTACK, d_Mission_VELOCITY_RATE__Vehicle_ANGLE_OF_ATTACK);
   (Dynamic_Mission_VELOCITY_RATE, Aircraft_Wing_INCIDENCE, d_Mission_VELOCITY_RATE__Wing_INCIDENCE);
   (Dynamic_Mission_VELOCITY_RATE, Dynamic_Vehicle_DRAG, d_Mission_VELOCITY_RATE__Vehicle_DRAG);
   (Dynamic_Mission_VELOCITY_RATE, Dynamic_Vehicle_MASS, d_Mission_VELOCITY_RATE__Vehicle_MASS);
   (Dynamic_Mission_VELOCITY_RATE, Dynamic_Mission_FLIGHT_PATH_ANGLE,
       d_Mission_VELOCITY_RATE__Mission_FLIGHT_PATH_ANGLE);
   (Dynamic_Mission_VELOCITY_RATE, Dynamic_Vehicle_LIFT, d_Mission_VELOCITY_RATE__Vehicle_LIFT);
   (Dynamic_Mission_VELOCITY_RATE, Mission_Takeoff_ROLLING_FRICTION_COEFFICIENT,
       d_Mission_VELOCITY_RATE__Takeoff_ROLLING_FRICTION_COEFFICIENT);
   (Dynamic_Mission_ALTITUDE_RATE, Dynamic_Mission_VELOCITY, d_Mission_ALTITUDE_RATE__Mission_VELOCITY);
   (Dynamic_Mission_ALTITUDE_RATE, Dynamic_Mission_FLIGHT_PATH_ANGLE,
       d_Mission_ALTITUDE_RATE__Mission_FLIGHT_PATH_ANGLE);
   (Dynamic_Mission_DISTANCE_RATE, Dynamic_Mission_VELOCITY, d_Mission_DISTANCE_RATE__Mission_VELOCITY);
   (Dynamic_Mission_DISTANCE_RATE, Dynamic_Mission_FLIGHT_PATH_ANGLE,
       d_Mission_DISTANCE_RATE__Mission_FLIGHT_PATH_ANGLE);
   (v_normal_force, Dynamic_Vehicle_MASS, d_normal_force__Vehicle_MASS);
   (v_normal_force, Dynamic_Vehicle_LIFT, d_normal_force__Vehicle_LIFT);
   (v_normal_force, Dynamic_Vehicle_Propulsion_THRUST_TOTAL, d_normal_force__Vehicle_Propulsion_THRUST_TOTAL);
   (v_normal_force, Dynamic_Vehicle_ANGLE_OF_ATTACK, d_normal_force__Vehicle_ANGLE_OF_ATTACK);
   (v_normal_force, Aircraft_Wing_INCIDENCE, d_normal_force__Wing_INCIDENCE)].

(** Inputs, outputs and declared partials: /repo/aviary/mission/solved_two_dof/ode/groundroll_eom.py L17-135 *)
Definition GroundrollEOM (op : options) : comp := {|
  c_ins := [Dynamic_Vehicle_MASS;
            Dynamic_Vehicle_Propulsion_THRUST_TOTAL;
            Dynamic_Vehicle_LIFT;
            Dynamic_Vehicle_DRAG;
            Dynamic_Mission_VELOCITY;
            Dynamic_Mission_FLIGHT_PATH_ANGLE;
            Aircraft_Wing_INCIDENCE;
            Dynamic_Vehicle_ANGLE_OF_ATTACK;
            Mission_Takeoff_ROLLING_FRICTION_COEFFICIENT];
  c_outs := [Dynamic_Mission_VELOCITY_RATE;
             Dynamic_Mission_FLIGHT_PATH_ANGLE_RATE;
             Dynamic_Mission_ALTITUDE_RATE;
             Dynamic_Mission_DISTANCE_RATE;
             v_normal_force;
             v_fuselage_pitch;
             v_angle_of_attack_rate];
  c_decl := [(Dynamic_Mission_FLIGHT_PATH_ANGLE_RATE, Dynamic_Vehicle_MASS, 0);
             (Dynamic_Mission_FLIGHT_PATH_ANGLE_RATE, Dynamic_Vehicle_Propulsion_THRUST_TOTAL, 0);
             (Dynamic_Mission_FLIGHT_PATH_ANGLE_RATE, Dynamic_Vehicle_LIFT, 0);
             (Dynamic_Mission_FLIGHT_PATH_ANGLE_RATE, Dynamic_Vehicle_DRAG, 0);
             (Dynamic_Mission_FLIGHT_PATH_ANGLE_RATE, Dynamic_Mission_VELOCITY, 0);
             (Dynamic_Mission_FLIGHT_PATH_ANGLE_RATE, Dynamic_Mission_FLIGHT_PATH_ANGLE, 0);
             (Dynamic_Mission_FLIGHT_PATH_ANGLE_RATE, Aircraft_Wing_INCIDENCE, 0);
             (Dynamic_Mission_FLIGHT_PATH_ANGLE_RATE, Dynamic_Vehicle_ANGLE_OF_ATTACK, 0);
             (Dynamic_Mission_FLIGHT_PATH_ANGLE_RATE, Mission_Takeoff_ROLLING_FRICTION_COEFFICIENT, 0);
             (Dynamic_Mission_VELOCITY_RATE, Dynamic_Vehicle_Propulsion_THRUST_TOTAL, 0);
             (Dynamic_Mission_VELOCITY_RATE, Dynamic_Vehicle_ANGLE_OF_ATTACK, 0);
             (Dynamic_Mission_VELOCITY_RATE, Dynamic_Vehicle_DRAG, 0);
             (Dynamic_Mission_VELOCITY_RATE, Dynamic_Vehicle_MASS, 0);
             (Dynamic_Mission_VELOCITY_RATE, Dynamic_Mission_FLIGHT_PATH_ANGLE, 0);
             (Dynamic_Mission_VELOCITY_RATE, Dynamic_Vehicle_LIFT, 0);
             (Dynamic_Mission_VELOCITY_RATE, Aircraft_Wing_INCIDENCE, 0);
             (Dynamic_Mission_VELOCITY_RATE, Mission_Takeoff_ROLLING_FRICTION_COEFFICIENT, 0);
             (Dynamic_Mission_ALTITUDE_RATE, Dynamic_Mission_VELOCITY, 0);
             (Dynamic_Mission_ALTITUDE_RATE, Dynamic_Mission_FLIGHT_PATH_ANGLE, 0);
             (Dynamic_Mission_DISTANCE_RATE, Dynamic_Mission_VELOCITY, 0);
             (Dynamic_Mission_DISTANCE_RATE, Dynamic_Mission_FLIGHT_PATH_ANGLE, 0);
             (v_normal_force, Dynamic_Vehicle_MASS, 0);
             (v_normal_force, Dynamic_Vehicle_LIFT, 0);
             (v_normal_force, Dynamic_Vehicle_Propulsion_THRUST_TOTAL, 0);
             (v_normal_force, Dynamic_Vehicle_ANGLE_OF_ATTACK, 0);
             (v_normal_force, Aircraft_Wing_INCIDENCE, 0);
             (v_fuselage_pitch, Dynamic_Mission_FLIGHT_PATH_ANGLE, 180 / PI);
             (v_fuselage_pitch, Dynamic_Vehicle_ANGLE_OF_ATTACK, 1);
             (v_fuselage_pitch, Aircraft_Wing_INCIDENCE, - 1);
             (v_angle_of_attack_rate, Dynamic_Vehicle_MASS, 0);
             (v_angle_of_attack_rate, Dynamic_Vehicle_Propulsion_THRUST_TOTAL, 0);
             (v_angle_of_attack_rate, Dynamic_Vehicle_LIFT, 0);
             (v_angle_of_attack_rate, Dynamic_Vehicle_DRAG, 0);
             (v_angle_of_attack_rate, Dynamic_Mission_VELOCITY, 0);
             (v_angle_of_attack_rate, Dynamic_Mission_FLIGHT_PATH_ANGLE, 0);
             (v_angle_of_attack_rate, Aircraft_Wing_INCIDENCE, 0);
             (v_angle_of_attack_rate, Dynamic_Vehicle_ANGLE_OF_ATTACK, 0);
             (v_angle_of_attack_rate, Mission_Takeoff_ROLLING_FRICTION_COEFFICIENT, 0)];
  c_run := GroundrollEOM_compute op; c_jac := GroundrollEOM_partials op |}.

(** The inputs that are scalars, shared by all nodes. *)
Definition GroundrollEOM_shared : list string := [Aircraft_Wing_INCIDENCE;
    Mission_Takeoff_ROLLING_FRICTION_COEFFICIENT].

(** UnsteadySolvedEOM.compute, /repo/aviary/mission/solved_two_dof/ode/unsteady_solved_eom.py L218-273 with ground_roll = False *)
Definition UnsteadySolvedEOM_flight_compute (op : options) (e : env) : list (string * R) :=
  let grav_metric := on op Mission_GRAVITY in  (* L219 *)
  let tas := e Dynamic_Mission_VELOCITY in  (* L221 *)
  let thrust := e Dynamic_Vehicle_Propulsion_THRUST_TOTAL in  (* L222 *)
  let weight := e Dynamic_Vehicle_MASS * GRAV_ENGLISH_LBM * on op v_LBF_TO_N in  (* L224 *)
  let drag := e Dynamic_Vehicle_DRAG in  (* L225 *)
  let lift := e Dynamic_Vehicle_LIFT in  (* L226 *)
  let alpha := e Dynamic_Vehicle_ANGLE_OF_ATTACK in  (* L227 *)
  let i_wing := e Aircraft_Wing_INCIDENCE in  (* L229 *)
  let g := grav_metric in  (* L231 *)
  let m := weight / g in  (* L232 *)
  let mu := 0 in  (* L238 *)
  let gamma := e Dynamic_Mission_FLIGHT_PATH_ANGLE in  (* L239 *)
  let dh_dr := e v_dh_dr in  (* L240 *)
  let d2h_dr2 := e v_d2h_dr2 in  (* L241 *)
  let alpha_i := alpha - i_wing in  (* L243 *)
  let cgam := cos gamma in  (* L245 *)
  let sgam := sin gamma in  (* L246 *)
  let calpha_i := cos alpha_i in  (* L248 *)
  let salpha_i := sin alpha_i in  (* L249 *)
  let tcai := thrust * calpha_i in  (* L251 *)
  let tsai := thrust * salpha_i in  (* L252 *)
  let dr_dt := tas * cgam in  (* L254 *)
  let normal_force := weight - lift - tsai in  (* L256 *)
  let load_factor := (lift + tsai) / (weight * cgam) in  (* L258 *)
  let o_dt_dr := 1 / dr_dt in  (* L260 *)
  let o_normal_force := normal_force in  (* L262 *)
  let o_dTAS_dt := (tcai - drag - weight * sgam - mu * normal_force) / m in  (* L264 *)
  let o_fuselage_pitch := gamma - i_wing + alpha in  (* L266 *)
  let o_load_factor := load_factor in  (* L268 *)
  let o_dgam_dt := (tsai + lift - weight * cgam) / (m * tas) in  (* L271 *)
  let dgam_dr := d2h_dr2 / (dh_dr ^ 2 + 1) in  (* L272 *)
  let o_dgam_dt_approx := dgam_dr * dr_dt in  (* L273 *)
  [(v_dt_dr, o_dt_dr);
   (v_normal_force, o_normal_force);
   (v_dTAS_dt, o_dTAS_dt);
   (v_fuselage_pitch, o_fuselage_pitch);
   (v_load_factor, o_load_factor);
   (v_dgam_dt, o_dgam_dt);
   (v_dgam_dt_approx, o_dgam_dt_approx)].

(** UnsteadySolvedEOM.compute_partials, /repo/aviary/mission/solved_two_dof/ode/unsteady_solved_eom.py L275-384 *)
Definition UnsteadySolvedEOM_flight_partials (op : options) (e : env) : list (string * string * R) :=
  let grav_metric := on op Mission_GRAVITY in  (* L276 *)
  let thrust := e Dynamic_Vehicle_Propulsion_THRUST_TOTAL in  (* L279 *)
  let weight := e Dynamic_Vehicle_MASS * GRAV_ENGLISH_LBM * on op v_LBF_TO_N in  (* L281 *)
  let drag := e Dynamic_Vehicle_DRAG in  (* L282 *)
  let lift := e Dynamic_Vehicle_LIFT in  (* L283 *)
  let tas := e Dynamic_Mission_VELOCITY in  (* L284 *)
  let i_wing := e Aircraft_Wing_INCIDENCE in  (* L285 *)
  let alpha := e Dynamic_Vehicle_ANGLE_OF_ATTACK in  (* L286 *)
  let mu := 0 in  (* L292 *)
  let gamma := e Dynamic_Mission_FLIGHT_PATH_ANGLE in  (* L293 *)
  let dh_dr := e v_dh_dr in  (* L294 *)
  let d2h_dr2 := e v_d2h_dr2 in  (* L295 *)
  let alpha_i := alpha - i_wing in  (* L297 *)
  let g := grav_metric in  (* L299 *)
  let m := weight / g in  (* L300 *)
  let mtas := m * tas in  (* L302 *)
  let mtas2 := mtas * mtas in  (* L303 *)
  let cgam := cos gamma in  (* L305 *)
  let sgam := sin gamma in  (* L306 *)
  let calpha_i := cos alpha_i in  (* L308 *)
  let salpha_i := sin alpha_i in  (* L309 *)
  let dr_dt := tas * cgam in  (* L311 *)
  let drdot_dtas := cgam in  (* L313 *)
  let drdot_dgam := - tas * sgam in  (* L314 *)
  let tcai := thrust * calpha_i in  (* L316 *)
  let tsai := thrust * salpha_i in  (* L317 *)
  let f := tcai - drag - weight * sgam - mu * (weight - lift - tsai) in  (* L319 *)
  let d_dt_dr__Mission_VELOCITY := - cgam / dr_dt ^ 2 in  (* L321 *)
  let d_dTAS_dt__Vehicle_Propulsion_THRUST_TOTAL := calpha_i / m + salpha_i / m * mu in  (* L323 *)
  let d_dTAS_dt__Vehicle_DRAG := - 1 / m in  (* L326 *)
  let d_dTAS_dt__Vehicle_MASS := GRAV_ENGLISH_LBM * (on op v_LBF_TO_N * (- sgam - mu) / m - f / (weight / on op
      v_LBF_TO_N * m)) in  (* L328 *)
  let d_dTAS_dt__Vehicle_LIFT := mu / m in  (* L332 *)
  let d_dTAS_dt__Vehicle_ANGLE_OF_ATTACK := - tsai / m + mu * tcai / m in  (* L333 *)
  let d_dTAS_dt__Wing_INCIDENCE := tsai / m - mu * tcai / m in  (* L334 *)
  let d_normal_force__Vehicle_Propulsion_THRUST_TOTAL := - salpha_i in  (* L336 *)
  let d_load_factor__Vehicle_LIFT := 1 / (weight * cgam) in  (* L338 *)
  let d_load_factor__Vehicle_Propulsion_THRUST_TOTAL := salpha_i / (weight * cgam) in  (* L339 *)
  let d_load_factor__Vehicle_MASS := - (lift + tsai) / (weight ^ 2 / on op v_LBF_TO_N * cgam) * GRAV_ENGLISH_LBM in  (* L342 *)
  let d_normal_force__Vehicle_ANGLE_OF_ATTACK := - tcai in  (* L346 *)
  let d_normal_force__Wing_INCIDENCE := tcai in  (* L347 *)
  let d_load_factor__Wing_INCIDENCE := - tcai / (weight * cgam) in  (* L348 *)
  let d_load_factor__Vehicle_ANGLE_OF_ATTACK := tcai / (weight * cgam) in  (* L350 *)
  let d_dt_dr__Mission_FLIGHT_PATH_ANGLE := - drdot_dgam / dr_dt ^ 2 in  (* L353 *)
  let d_dTAS_dt__Mission_FLIGHT_PATH_ANGLE := - weight * cgam / m in  (* L355 *)
  let d_dgam_dt__Vehicle_Propulsion_THRUST_TOTAL := salpha_i / mtas in  (* L357 *)
  let d_dgam_dt__Vehicle_LIFT := 1 / mtas in  (* L358 *)
  let d_dgam_dt__Vehicle_MASS := GRAV_ENGLISH_LBM * (on op v_LBF_TO_N * cgam / mtas - (tsai + lift + weight * cgam) /
      (weight ^ 2 / on op v_LBF_TO_N / g * tas)) in  (* L359 *)
  let d_dgam_dt__Mission_FLIGHT_PATH_ANGLE := m * tas * weight * sgam / mtas2 in  (* L363 *)
  let d_dgam_dt__Vehicle_ANGLE_OF_ATTACK := m * tas * tcai / mtas2 in  (* L364 *)
  let d_dgam_dt__Mission_VELOCITY := - m * (tsai + lift - weight * cgam) / mtas2 in  (* L365 *)
  let d_dgam_dt__Wing_INCIDENCE := - m * tas * tcai / mtas2 in  (* L368 *)
  let dgam_dr := d2h_dr2 / (dh_dr ^ 2 + 1) in  (* L370 *)
  let ddgam_dr_ddh_dr := - 2 * dh_dr * d2h_dr2 / (dh_dr ^ 2 + 1) ^ 2 in  (* L371 *)
  let ddgam_dr_dd2h_dr2 := 1 / (dh_dr ^ 2 + 1) in  (* L372 *)
  let d_dgam_dt_approx__dh_dr := dr_dt * ddgam_dr_ddh_dr in  (* L374 *)
  let d_dgam_dt_approx__d2h_dr2 := dr_dt * ddgam_dr_dd2h_dr2 in  (* L375 *)
  let d_dgam_dt_approx__Mission_VELOCITY := dgam_dr * drdot_dtas in  (* L376 *)
  let d_dgam_dt_approx__Mission_FLIGHT_PATH_ANGLE := dgam_dr * drdot_dgam in  (* L377 *)
  let d_load_factor__Mission_FLIGHT_PATH_ANGLE := (lift + tsai) / (weight * cgam ^ 2) * sgam in  (* L378 *)
  [(v_dt_dr, Dynamic_Mission_VELOCITY, d_dt_dr__Mission_VELOCITY);
   (v_dTAS_dt, Dynamic_Vehicle_Propulsion_THRUST_TOTAL, d_dTAS_dt__Vehicle_Propulsion_THRUST_TOTAL);
   (v_dTAS_dt, Dynamic_Vehicle_DRAG, d_dTAS_dt__Vehicle_DRAG);
   (v_dTAS_dt, Dynamic_Vehicle_MASS, d_dTAS_dt__Vehicle_MASS);
   (v_dTAS_dt, Dynamic_Vehicle_LIFT, d_dTAS_dt__Vehicle_LIFT);
   (v_dTAS_dt, Dynamic_Vehicle_ANGLE_OF_ATTACK, d_dTAS_dt__Vehicle_ANGLE_OF_ATTACK);
   (v_dTAS_dt, Aircraft_Wing_INCIDENCE, d_dTAS_dt__Wing_INCIDENCE);
   (v_normal_force, Dynamic_Vehicle_Propulsion_THRUST_TOTAL, d_normal_force__Vehicle_Propulsion_THRUST_TOTAL);
   (v_load_factor, Dynamic_Vehicle_LIFT, d_load_factor__Vehicle_LIFT);
   (v_load_factor, Dynamic_Vehicle_Propulsion_THRUST_TOTAL, d_load_factor__Vehicle_Propulsion_THRUST_TOTAL);
   (v_load_factor, Dynamic_Vehicle_MASS, d_load_factor__Vehicle_MASS);
   (v_normal_force, Dynamic_Vehicle_ANGLE_OF_ATTACK, d_normal_force__Vehicle_ANGLE_OF_ATTACK);
   (v_normal_force, Aircraft_Wing_INCIDENCE, d_normal_force__Wing_INCIDENCE);
   (v_load_factor, Aircraft_Wing_INCIDENCE, d_load_factor__Wing_INCIDENCE);
   (v_load_factor, Dynamic_Vehicle_ANGLE_OF_ATTACK, d_load_factor__Vehicle_ANGLE_OF_ATTACK);
   (v_dt_dr, Dynamic_Mission_FLIGHT_PATH_ANGLE, d_dt_dr__Mission_FLIGHT_PATH_ANGLE);
   (v_dTAS_dt, Dynamic_Mission_FLIGHT_PATH_ANGLE, d_dTAS_dt__Mission_FLIGHT_PATH_ANGLE);
   (v_dgam_dt, Dynamic_Vehicle_Propulsion_THRUST_TOTAL, d_dgam_dt__Vehicle_Propulsion_THRUST_TOTAL);
   (v_dgam_dt, Dynamic_Vehicle_LIFT, d_dgam_dt__Vehicle_LIFT);
   (v_dgam_dt, Dynamic_Vehicle_MASS, d_dgam_dt__Vehicle_MASS);
   (v_dgam_dt, Dynamic_Mission_FLIGHT_PATH_ANGLE, d_dgam_dt__Mission_FLIGHT_PATH_ANGLE);
   (v_dgam_dt, Dynamic_Vehicle_ANGLE_OF_ATTACK, d_dgam_dt__Vehicle_ANGLE_OF_ATTACK);
   (v_dgam_dt, Dynamic_Mission_VELOCITY, d_dgam_dt__Mission_VELOCITY);
   (v_dgam_dt, Aircraft_Wing_INCIDENCE, d_dgam_dt__Wing_INCIDENCE);
   (v_dgam_dt_approx, v_dh_dr, d_dgam_dt_approx__dh_dr);
   (v_dgam_dt_approx, v_d2h_dr2, d_dgam_dt_approx__d2h_dr2);
   (v_dgam_dt_approx, Dynamic_Mission_VELOCITY, d_dgam_dt_approx__Mission_VELOCITY);
   (v_dgam_dt_approx, Dynamic_Mission_FLIGHT_PATH_ANGLE, d_dgam_dt_approx__Mission_FLIGHT_PATH_ANGLE);
   (v_load_factor, Dynamic_Mission_FLIGHT_PATH_ANGLE, d_load_factor__Mission_FLIGHT_PATH_ANGLE)].

(** Inputs, outputs and declared partials: /repo/aviary/mission/solved_two_dof/ode/unsteady_solved_eom.py L36-216 *)
Definition UnsteadySolvedEOM_flight (op : options) : comp := {|
  c_ins := [Dynamic_Mission_VELOCITY;
            Dynamic_Vehicle_MASS;
            Dynamic_Vehicle_Propulsion_THRUST_TOTAL;
            Dynamic_Vehicle_LIFT;
            Dynamic_Vehicle_DRAG;
            Aircraft_Wing_INCIDENCE;
            Dynamic_Vehicle_ANGLE_OF_ATTACK;
            Mission_Takeoff_ROLLING_FRICTION_COEFFICIENT;
            Dynamic_Mission_FLIGHT_PATH_ANGLE;
            v_dh_dr;
            v_d2h_dr2];
  c_outs := [v_dt_dr;
             v_normal_force;
             v_fuselage_pitch;
             v_load_factor;
             v_dTAS_dt;
             v_dgam_dt;
             v_dgam_dt_approx];
  c_decl := [(v_dt_dr, Dynamic_Mission_VELOCITY, 0);
             (v_normal_force, Dynamic_Vehicle_Propulsion_THRUST_TOTAL, 0);
             (v_normal_force, Dynamic_Vehicle_DRAG, 0);
             (v_normal_force, Dynamic_Vehicle_MASS, on op v_LBF_TO_N * GRAV_ENGLISH_LBM);
             (v_normal_force, Dynamic_Vehicle_LIFT, - 1);
             (v_dTAS_dt, Dynamic_Vehicle_Propulsion_THRUST_TOTAL, 0);
             (v_dTAS_dt, Dynamic_Vehicle_DRAG, 0);
             (v_dTAS_dt, Dynamic_Vehicle_MASS, 0);
             (v_dTAS_dt, Dynamic_Vehicle_LIFT, 0);
             (v_load_factor, Dynamic_Vehicle_LIFT, 0);
             (v_load_factor, Dynamic_Vehicle_MASS, 0);
             (v_load_factor, Dynamic_Vehicle_Propulsion_THRUST_TOTAL, 0);
             (v_dTAS_dt, Aircraft_Wing_INCIDENCE, 0);
             (v_normal_force, Aircraft_Wing_INCIDENCE, 0);
             (v_load_factor, Aircraft_Wing_INCIDENCE, 0);
             (v_normal_force, Dynamic_Vehicle_ANGLE_OF_ATTACK, 0);
             (v_dTAS_dt, Dynamic_Vehicle_ANGLE_OF_ATTACK, 0);
             (v_fuselage_pitch, Dynamic_Vehicle_ANGLE_OF_ATTACK, 1);
             (v_fuselage_pitch, Aircraft_Wing_INCIDENCE, - 1);
             (v_load_factor, Dynamic_Vehicle_ANGLE_OF_ATTACK, 0);
             (v_dt_dr, Dynamic_Mission_FLIGHT_PATH_ANGLE, 0);
             (v_dgam_dt, Dynamic_Vehicle_LIFT, 0);
             (v_dgam_dt, Dynamic_Vehicle_MASS, 0);
             (v_dgam_dt, Dynamic_Vehicle_Propulsion_THRUST_TOTAL, 0);
             (v_dgam_dt, Dynamic_Vehicle_DRAG, 0);
             (v_dgam_dt, Dynamic_Vehicle_ANGLE_OF_ATTACK, 0);
             (v_dgam_dt, Dynamic_Mission_FLIGHT_PATH_ANGLE, 0);
             (v_dgam_dt_approx, Dynamic_Vehicle_LIFT, 0);
             (v_dgam_dt_approx, Dynamic_Vehicle_MASS, 0);
             (v_dgam_dt_approx, Dynamic_Vehicle_Propulsion_THRUST_TOTAL, 0);
             (v_dgam_dt_approx, Dynamic_Vehicle_DRAG, 0);
             (v_dgam_dt_approx, Dynamic_Vehicle_ANGLE_OF_ATTACK, 0);
             (v_dgam_dt_approx, Dynamic_Mission_FLIGHT_PATH_ANGLE, 0);
             (v_normal_force, Dynamic_Mission_FLIGHT_PATH_ANGLE, 0);
             (v_dTAS_dt, Dynamic_Mission_FLIGHT_PATH_ANGLE, 0);
             (v_dgam_dt, Dynamic_Mission_VELOCITY, 0);
             (v_load_factor, Dynamic_Mission_FLIGHT_PATH_ANGLE, 0);
             (v_fuselage_pitch, Dynamic_Mission_FLIGHT_PATH_ANGLE, 1);
             (v_dgam_dt_approx, v_dh_dr, 0);
             (v_dgam_dt_approx, v_d2h_dr2, 0);
             (v_dgam_dt_approx, Dynamic_Mission_VELOCITY, 0);
             (v_dgam_dt_approx, Aircraft_Wing_INCIDENCE, 0);
             (v_dgam_dt, Aircraft_Wing_INCIDENCE, 0)];
  c_run := UnsteadySolvedEOM_flight_compute op; c_jac := UnsteadySolvedEOM_flight_partials op |}.

(** The inputs that are scalars, shared by all nodes. *)
Definition UnsteadySolvedEOM_flight_shared : list string := [Aircraft_Wing_INCIDENCE;
    Mission_Takeoff_ROLLING_FRICTION_COEFFICIENT].

(** UnsteadySolvedEOM.compute, /repo/aviary/mission/solved_two_dof/ode/unsteady_solved_eom.py L218-273 with ground_roll = True *)
Definition UnsteadySolvedEOM_ground_compute (op : options) (e : env) : list (string * R) :=
  let grav_metric := on op Mission_GRAVITY in  (* L219 *)
  let tas := e Dynamic_Mission_VELOCITY in  (* L221 *)
  let thrust := e Dynamic_Vehicle_Propulsion_THRUST_TOTAL in  (* L222 *)
  let weight := e Dynamic_Vehicle_MASS * GRAV_ENGLISH_LBM * on op v_LBF_TO_N in  (* L224 *)
  let drag := e Dynamic_Vehicle_DRAG in  (* L225 *)
  let lift := e Dynamic_Vehicle_LIFT in  (* L226 *)
  let alpha := e Dynamic_Vehicle_ANGLE_OF_ATTACK in  (* L227 *)
  let i_wing := e Aircraft_Wing_INCIDENCE in  (* L229 *)
  let g := grav_metric in  (* L231 *)
  let m := weight / g in  (* L232 *)
  let mu := e Mission_Takeoff_ROLLING_FRICTION_COEFFICIENT in  (* L235 *)
  let gamma := 0 in  (* L236 *)
  let alpha_i := alpha - i_wing in  (* L243 *)
  let cgam := cos gamma in  (* L245 *)
  let sgam := sin gamma in  (* L246 *)
  let calpha_i := cos alpha_i in  (* L248 *)
  let salpha_i := sin alpha_i in  (* L249 *)
  let tcai := thrust * calpha_i in  (* L251 *)
  let tsai := thrust * salpha_i in  (* L252 *)
  let dr_dt := tas * cgam in  (* L254 *)
  let normal_force := weight - lift - tsai in  (* L256 *)
  let load_factor := (lift + tsai) / (weight * cgam) in  (* L258 *)
  let o_dt_dr := 1 / dr_dt in  (* L260 *)
  let o_normal_force := normal_force in  (* L262 *)
  let o_dTAS_dt := (tcai - drag - weight * sgam - mu * normal_force) / m in  (* L264 *)
  let o_fuselage_pitch := gamma - i_wing + alpha in  (* L266 *)
  let o_load_factor := load_factor in  (* L268 *)
  [(v_dt_dr, o_dt_dr);
   (v_normal_force, o_normal_force);
   (v_dTAS_dt, o_dTAS_dt);
   (v_fuselage_pitch, o_fuselage_pitch);
   (v_load_factor, o_load_factor)].

(** UnsteadySolvedEOM.compute_partials, /repo/aviary/mission/solved_two_dof/ode/unsteady_solved_eom.py L275-384 *)
Definition UnsteadySolvedEOM_ground_partials (op : options) (e : env) : list (string * string * R) :=
  let grav_metric := on op Mission_GRAVITY in  (* L276 *)
  let thrust := e Dynamic_Vehicle_Propulsion_THRUST_TOTAL in  (* L279 *)
  let weight := e Dynamic_Vehicle_MASS * GRAV_ENGLISH_LBM * on op v_LBF_TO_N in  (* L281 *)
  let drag := e Dynamic_Vehicle_DRAG in  (* L282 *)
  let lift := e Dynamic_Vehicle_LIFT in  (* L283 *)
  let tas := e Dynamic_Mission_VELOCITY in  (* L284 *)
  let i_wing := e Aircraft_Wing_INCIDENCE in  (* L285 *)
  let alpha := e Dynamic_Vehicle_ANGLE_OF_ATTACK in  (* L286 *)
  let mu := e Mission_Takeoff_ROLLING_FRICTION_COEFFICIENT in  (* L289 *)
  let gamma := 0 in  (* L290 *)
  let alpha_i := alpha - i_wing in  (* L297 *)
  let g := grav_metric in  (* L299 *)
  let m := weight / g in  (* L300 *)
  let mtas := m * tas in  (* L302 *)
  let mtas2 := mtas * mtas in  (* L303 *)
  let cgam := cos gamma in  (* L305 *)
  let sgam := sin gamma in  (* L306 *)
  let calpha_i := cos alpha_i in  (* L308 *)
  let salpha_i := sin alpha_i in  (* L309 *)
  let dr_dt := tas * cgam in  (* L311 *)
  let drdot_dtas := cgam in  (* L313 *)
  let drdot_dgam := - tas * sgam in  (* L314 *)
  let tcai := thrust * calpha_i in  (* L316 *)
  let tsai := thrust * salpha_i in  (* L317 *)
  let f := tcai - drag - weight * sgam - mu * (weight - lift - tsai) in  (* L319 *)
  let d_dt_dr__Mission_VELOCITY := - cgam / dr_dt ^ 2 in  (* L321 *)
  let d_dTAS_dt__Vehicle_Propulsion_THRUST_TOTAL := calpha_i / m + salpha_i / m * mu in  (* L323 *)
  let d_dTAS_dt__Vehicle_DRAG := - 1 / m in  (* L326 *)
  let d_dTAS_dt__Vehicle_MASS := GRAV_ENGLISH_LBM * (on op v_LBF_TO_N * (- sgam - mu) / m - f / (weight / on op
      v_LBF_TO_N * m)) in  (* L328 *)
  let d_dTAS_dt__Vehicle_LIFT := mu / m in  (* L332 *)
  let d_dTAS_dt__Vehicle_ANGLE_OF_ATTACK := - tsai / m + mu * tcai / m in  (* L333 *)
  let d_dTAS_dt__Wing_INCIDENCE := tsai / m - mu * tcai / m in  (* L334 *)
  let d_normal_force__Vehicle_Propulsion_THRUST_TOTAL := - salpha_i in  (* L336 *)
  let d_load_factor__Vehicle_LIFT := 1 / (weight * cgam) in  (* L338 *)
  let d_load_factor__Vehicle_Propulsion_THRUST_TOTAL := salpha_i / (weight * cgam) in  (* L339 *)
  let d_load_factor__Vehicle_MASS := - (lift + tsai) / (weight ^ 2 / on op v_LBF_TO_N * cgam) * GRAV_ENGLISH_LBM in  (* L342 *)
  let d_normal_force__Vehicle_ANGLE_OF_ATTACK := - tcai in  (* L346 *)
  let d_normal_force__Wing_INCIDENCE := tcai in  (* L347 *)
  let d_load_factor__Wing_INCIDENCE := - tcai / (weight * cgam) in  (* L348 *)
  let d_load_factor__Vehicle_ANGLE_OF_ATTACK := tcai / (weight * cgam) in  (* L350 *)
  let d_dTAS_dt__Takeoff_ROLLING_FRICTION_COEFFICIENT := - (weight - lift - tsai) / m in  (* L382 *)
  [(v_dt_dr, Dynamic_Mission_VELOCITY, d_dt_dr__Mission_VELOCITY);
   (v_dTAS_dt, Dynamic_Vehicle_Propulsion_THRUST_TOTAL, d_dTAS_dt__Vehicle_Propulsion_THRUST_TOTAL);
   (v_dTAS_dt, Dynamic_Vehicle_DRAG, d_dTAS_dt__Vehicle_DRAG);
   (v_dTAS_dt, Dynamic_Vehicle_MASS, d_dTAS_dt__Vehicle_MASS);
   (v_dTAS_dt, Dynamic_Vehicle_LIFT, d_dTAS_dt__Vehicle_LIFT);
   (v_dTAS_dt, Dynamic_Vehicle_ANGLE_OF_ATTACK, d_dTAS_dt__Vehicle_ANGLE_OF_ATTACK);
   (v_dTAS_dt, Aircraft_Wing_INCIDENCE, d_dTAS_dt__Wing_INCIDENCE);
   (v_normal_force, Dynamic_Vehicle_Propulsion_THRUST_TOTAL, d_normal_force__Vehicle_Propulsion_THRUST_TOTAL);
   (v_load_factor, Dynamic_Vehicle_LIFT, d_load_factor__Vehicle_LIFT);
   (v_load_factor, Dynamic_Vehicle_Propulsion_THRUST_TOTAL, d_load_factor__Vehicle_Propulsion_THRUST_TOTAL);
   (v_load_factor, Dynamic_Vehicle_MASS, d_load_factor__Vehicle_MASS);
   (v_normal_force, Dynamic_Vehicle_ANGLE_OF_ATTACK, d_normal_force__Vehicle_ANGLE_OF_ATTACK);
   (v_normal_force, Aircraft_Wing_INCIDENCE, d_normal_force__Wing_INCIDENCE);
   (v_load_factor, Aircraft_Wing_INCIDENCE, d_load_factor__Wing_INCIDENCE);
   (v_load_factor, Dynamic_Vehicle_ANGLE_OF_ATTACK, d_load_factor__Vehicle_ANGLE_OF_ATTACK);
   (v_dTAS_dt, Mission_Takeoff_ROLLING_FRICTION_COEFFICIENT, d_dTAS_dt__Takeoff_ROLLING_FRICTION_COEFFICIENT)].

(** Inputs, outputs and declared partials: /repo/aviary/mission/solved_two_dof/ode/unsteady_solved_eom.py L36-216 *)
Definition UnsteadySolvedEOM_ground (op : options) : comp := {|
  c_ins := [Dynamic_Mission_VELOCITY;
            Dynamic_Vehicle_MASS;
            Dynamic_Vehicle_Propulsion_THRUST_TOTAL;
            Dynamic_Vehicle_LIFT;
            Dynamic_Vehicle_DRAG;
            Aircraft_Wing_INCIDENCE;
            Dynamic_Vehicle_ANGLE_OF_ATTACK;
            Mission_Takeoff_ROLLING_FRICTION_COEFFICIENT];
  c_outs := [v_dt_dr;
             v_normal_force;
             v_fuselage_pitch;
             v_load_factor;
             v_dTAS_dt];
  c_decl := [(v_dt_dr, Dynamic_Mission_VELOCITY, 0);
             (v_normal_force, Dynamic_Vehicle_Propulsion_THRUST_TOTAL, 0);
             (v_normal_force, Dynamic_Vehicle_DRAG, 0);
             (v_normal_force, Dynamic_Vehicle_MASS, on op v_LBF_TO_N * GRAV_ENGLISH_LBM);
             (v_normal_force, Dynamic_Vehicle_LIFT, - 1);
             (v_dTAS_dt, Dynamic_Vehicle_Propulsion_THRUST_TOTAL, 0);
             (v_dTAS_dt, Dynamic_Vehicle_DRAG, 0);
             (v_dTAS_dt, Dynamic_Vehicle_MASS, 0);
             (v_dTAS_dt, Dynamic_Vehicle_LIFT, 0);
             (v_load_factor, Dynamic_Vehicle_LIFT, 0);
             (v_load_factor, Dynamic_Vehicle_MASS, 0);
             (v_load_factor, Dynamic_Vehicle_Propulsion_THRUST_TOTAL, 0);
             (v_dTAS_dt, Aircraft_Wing_INCIDENCE, 0);
             (v_normal_force, Aircraft_Wing_INCIDENCE, 0);
             (v_load_factor, Aircraft_Wing_INCIDENCE, 0);
             (v_dTAS_dt, Mission_Takeoff_ROLLING_FRICTION_COEFFICIENT, 0);
             (v_normal_force, Dynamic_Vehicle_ANGLE_OF_ATTACK, 0);
             (v_dTAS_dt, Dynamic_Vehicle_ANGLE_OF_ATTACK, 0);
             (v_fuselage_pitch, Dynamic_Vehicle_ANGLE_OF_ATTACK, 1);
             (v_fuselage_pitch, Aircraft_Wing_INCIDENCE, - 1);
             (v_load_factor, Dynamic_Vehicle_ANGLE_OF_ATTACK, 0)];
  c_run := UnsteadySolvedEOM_ground_compute op; c_jac := UnsteadySolvedEOM_ground_partials op |}.

(** The inputs that are scalars, shared by all nodes. *)
Definition UnsteadySolvedEOM_ground_shared : list string := [Aircraft_Wing_INCIDENCE;
    Mission_Takeoff_ROLLING_FRICTION_COEFFICIENT].

(** FlightPathEOM.compute, /repo/aviary/mission/two_dof/ode/flight_path_eom.py L192-242 with ground_roll = False *)
Definition FlightPathEOM_flight_compute (op : options) (e : env) : list (string * R) :=
  let grav_english := on op Mission_GRAVITY in  (* L193 *)
  let mu := 0 in  (* L197 *)
  let weight := e Dynamic_Vehicle_MASS * GRAV_ENGLISH_LBM in  (* L199 *)
  let thrust := e Dynamic_Vehicle_Propulsion_THRUST_TOTAL in  (* L200 *)
  let incremented_lift := e Dynamic_Vehicle_LIFT in  (* L201 *)
  let incremented_drag := e Dynamic_Vehicle_DRAG in  (* L202 *)
  let TAS := e Dynamic_Mission_VELOCITY in  (* L203 *)
  let gamma := e Dynamic_Mission_FLIGHT_PATH_ANGLE in  (* L204 *)
  let i_wing := e Aircraft_Wing_INCIDENCE in  (* L205 *)
  let alpha := e Dynamic_Vehicle_ANGLE_OF_ATTACK in  (* L209 *)
  let thrust_along_flightpath := thrust * cos ((alpha - i_wing) * PI / 180) in  (* L211 *)
  let thrust_across_flightpath := thrust * sin ((alpha - i_wing) * PI / 180) in  (* L212 *)
  let normal_force := weight - incremented_lift - thrust_across_flightpath in  (* L213 *)
  let o_Mission_VELOCITY_RATE := (thrust_along_flightpath - incremented_drag - weight * sin gamma - mu * normal_force)
      * grav_english / weight in  (* L215 *)
  let o_Mission_FLIGHT_PATH_ANGLE_RATE := (thrust_across_flightpath + incremented_lift - weight * cos gamma) *
      grav_english / (TAS * weight) in  (* L227 *)
  let o_Mission_ALTITUDE_RATE := TAS * sin gamma in  (* L232 *)
  let o_Mission_DISTANCE_RATE := TAS * cos gamma in  (* L234 *)
  let o_normal_force := normal_force in  (* L236 *)
  let o_fuselage_pitch := gamma * 180 / PI - i_wing + alpha in  (* L238 *)
  let load_factor := (incremented_lift + thrust_across_flightpath) / (weight * cos gamma) in  (* L240 *)
  let o_load_factor := load_factor in  (* L242 *)
  [(Dynamic_Mission_VELOCITY_RATE, o_Mission_VELOCITY_RATE);
   (Dynamic_Mission_FLIGHT_PATH_ANGLE_RATE, o_Mission_FLIGHT_PATH_ANGLE_RATE);
   (Dynamic_Mission_ALTITUDE_RATE, o_Mission_ALTITUDE_RATE);
   (Dynamic_Mission_DISTANCE_RATE, o_Mission_DISTANCE_RATE);
   (v_normal_force, o_normal_force);
   (v_fuselage_pitch, o_fuselage_pitch);
   (v_load_factor, o_load_factor)].

(** FlightPathEOM.compute_partials, /repo/aviary/mission/two_dof/ode/flight_path_eom.py L244-393 *)
Definition FlightPathEOM_flight_partials (op : options) (e : env) : list (string * string * R) :=
  let grav_english := on op Mission_GRAVITY in  (* L245 *)
  let mu := 0 in  (* L249 *)
  let weight := e Dynamic_Vehicle_MASS * GRAV_ENGLISH_LBM in  (* L251 *)
  let thrust := e Dynamic_Vehicle_Propulsion_THRUST_TOTAL in  (* L252 *)
  let incremented_lift := e Dynamic_Vehicle_LIFT in  (* L253 *)
  let incremented_drag := e Dynamic_Vehicle_DRAG in  (* L254 *)
  let TAS := e Dynamic_Mission_VELOCITY in  (* L255 *)
  let gamma := e Dynamic_Mission_FLIGHT_PATH_ANGLE in  (* L256 *)
  let i_wing := e Aircraft_Wing_INCIDENCE in  (* L257 *)
  let alpha := e Dynamic_Vehicle_ANGLE_OF_ATTACK in  (* L261 *)
  let nn := on op v_num_nodes in  (* L263 *)
  let thrust_along_flightpath := thrust * cos ((alpha - i_wing) * PI / 180) in  (* L265 *)
  let thrust_across_flightpath := thrust * sin ((alpha - i_wing) * PI / 180) in  (* L266 *)
  let dTAlF_dThrust := cos ((alpha - i_wing) * PI / 180) in  (* L268 *)
  let dTAlF_dAlpha := - thrust * sin ((alpha - i_wing) * PI / 180) * PI / 180 in  (* L269 *)
  let dTAlF_dIwing := thrust * sin ((alpha - i_wing) * PI / 180) * PI / 180 in  (* L270 *)
  let dTAcF_dThrust := sin ((alpha - i_wing) * PI / 180) in  (* L272 *)
  let dTAcF_dAlpha := thrust * cos ((alpha - i_wing) * PI / 180) * PI / 180 in  (* L273 *)
  let dTAcF_dIwing := - thrust * cos ((alpha - i_wing) * PI / 180) * PI / 180 in  (* L274 *)
  let d_load_factor__Vehicle_LIFT := 1 / (weight * cos gamma) in  (* L276 *)
  let d_load_factor__Vehicle_MASS := - (incremented_lift + thrust_across_flightpath) / (weight ^ 2 * cos gamma) *
      GRAV_ENGLISH_LBM in  (* L277 *)
  let d_load_factor__Mission_FLIGHT_PATH_ANGLE := - (incremented_lift + thrust_across_flightpath) / (weight * cos
      gamma ^ 2) * - sin gamma in  (* L282 *)
  let d_load_factor__Vehicle_Propulsion_THRUST_TOTAL := dTAcF_dThrust / (weight * cos gamma) in  (* L287 *)
  let normal_force := weight - incremented_lift - thrust_across_flightpath in  (* L291 *)
  let dNF_dWeight := 1 in  (* L294 *)
  let dNF_dLift := - 1 in  (* L297 *)
  let dNF_dThrust := - 1 * dTAcF_dThrust in  (* L300 *)
  let dNF_dIwing := - 1 * dTAcF_dIwing in  (* L303 *)
  let d_Mission_VELOCITY_RATE__Vehicle_Propulsion_THRUST_TOTAL := (dTAlF_dThrust - mu * dNF_dThrust) * grav_english /
      weight in  (* L306 *)
  let d_Mission_VELOCITY_RATE__Vehicle_DRAG := - grav_english / weight in  (* L310 *)
  let d_Mission_VELOCITY_RATE__Vehicle_MASS := grav_english * GRAV_ENGLISH_LBM * (weight * (- sin gamma - mu *
      dNF_dWeight) - (thrust_along_flightpath - incremented_drag - weight * sin gamma - mu * normal_force)) / weight ^
      2 in  (* L311 *)
  let d_Mission_VELOCITY_RATE__Mission_FLIGHT_PATH_ANGLE := - cos gamma * grav_english in  (* L325 *)
  let d_Mission_VELOCITY_RATE__Vehicle_LIFT := grav_english * (- mu * dNF_dLift) / weight in  (* L328 *)
  let d_Mission_ALTITUDE_RATE__Mission_VELOCITY := sin gamma in  (* L338 *)
  let d_Mission_ALTITUDE_RATE__Mission_FLIGHT_PATH_ANGLE := TAS * cos gamma in  (* L339 *)
  let d_Mission_FLIGHT_PATH_ANGLE_RATE__Vehicle_Propulsion_THRUST_TOTAL := dTAcF_dThrust * grav_english / (TAS *
      weight) in  (* L343 *)
  let d_Mission_FLIGHT_PATH_ANGLE_RATE__Vehicle_ANGLE_OF_ATTACK := dTAcF_dAlpha * grav_english / (TAS * weight) in  (* L347 *)
  let d_Mission_FLIGHT_PATH_ANGLE_RATE__Wing_INCIDENCE := dTAcF_dIwing * grav_english / (TAS * weight) in  (* L350 *)
  let d_Mission_FLIGHT_PATH_ANGLE_RATE__Vehicle_LIFT := grav_english / (TAS * weight) in  (* L353 *)
  let d_Mission_FLIGHT_PATH_ANGLE_RATE__Vehicle_MASS := grav_english / TAS * GRAV_ENGLISH_LBM * (-
      thrust_across_flightpath / weight ^ 2 - incremented_lift / weight ^ 2) in  (* L356 *)
  let d_Mission_FLIGHT_PATH_ANGLE_RATE__Mission_FLIGHT_PATH_ANGLE := weight * sin gamma * grav_english / (TAS *
      weight) in  (* L361 *)
  let d_Mission_FLIGHT_PATH_ANGLE_RATE__Mission_VELOCITY := - ((thrust_across_flightpath + incremented_lift - weight *
      cos gamma) * grav_english / (TAS ^ 2 * weight)) in  (* L365 *)
  let dNF_dAlpha := - 1 * dTAcF_dAlpha in  (* L371 *)
  let d_Mission_VELOCITY_RATE__Vehicle_ANGLE_OF_ATTACK := (dTAlF_dAlpha - mu * dNF_dAlpha) * grav_english / weight in  (* L373 *)
  let d_normal_force__Vehicle_ANGLE_OF_ATTACK := dNF_dAlpha in  (* L376 *)
  let d_fuselage_pitch__Vehicle_ANGLE_OF_ATTACK := 1 in  (* L377 *)
  let d_load_factor__Vehicle_ANGLE_OF_ATTACK := dTAcF_dAlpha / (weight * cos gamma) in  (* L378 *)
  let d_Mission_VELOCITY_RATE__Wing_INCIDENCE := (dTAlF_dIwing - mu * dNF_dIwing) * grav_english / weight in  (* L381 *)
  let d_normal_force__Wing_INCIDENCE := dNF_dIwing in  (* L384 *)
  let d_fuselage_pitch__Wing_INCIDENCE := - 1 in  (* L385 *)
  let d_load_factor__Wing_INCIDENCE := dTAcF_dIwing / (weight * cos gamma) in  (* L386 *)
  let d_Mission_DISTANCE_RATE__Mission_VELOCITY := cos gamma in  (* L388 *)
  let d_Mission_DISTANCE_RATE__Mission_FLIGHT_PATH_ANGLE := - TAS * sin gamma in  (* L389 *)
  let d_normal_force__Vehicle_MASS := dNF_dWeight * GRAV_ENGLISH_LBM in  (* L391 *)
  let d_normal_force__Vehicle_LIFT := dNF_dLift in  (* L392 *)
  let d_normal_force__Vehicle_Propulsion_THRUST_TOTAL := dNF_dThrust in  (* L393 *)
  [(v_load_factor, Dynamic_Vehicle_LIFT, d_load_factor__Vehicle_LIFT);
   (v_load_factor, Dynamic_Vehicle_MASS, d_load_factor__Vehicle_MASS);
   (v_load_factor, Dynamic_Mission_FLIGHT_PATH_ANGLE, d_load_factor__Mission_FLIGHT_PATH_ANGLE);
   (v_load_factor, Dynamic_Vehicle_Propulsion_THRUST_TOTAL, d_load_factor__Vehicle_Propulsion_THRUST_TOTAL);
   (Dynamic_Mission_VELOCITY_RATE, Dynamic_Vehicle_Propulsion_THRUST_TOTAL,
       d_Mission_VELOCITY_RATE__Vehicle_Propulsion_THRUST_TOTAL);
   (Dynamic_Mission_VELOCITY_RATE, Dynamic_Vehicle_DRAG, d_Mission_VELOCITY_RATE__Vehicle_DRAG);
   (Dynamic_Mission_VELOCITY_RATE, Dynamic_Vehicle_MASS, d_Mission_VELOCITY_RATE__Vehicle_MASS);
   (Dynamic_Mission_VELOCITY_RATE, Dynamic_Mission_FLIGHT_PATH_ANGLE,
       d_Mission_VELOCITY_RATE__Mission_FLIGHT_PATH_ANGLE);
   (Dynamic_Mission_VELOCITY_RATE, Dynamic_Vehicle_LIFT, d_Mission_VELOCITY_RATE__Vehicle_LIFT);
   (Dynamic_Mission_ALTITUDE_RATE, Dynamic_Mission_VELOCITY, d_Mission_ALTITUDE_RATE__Mission_VELOCITY);
   (Dynamic_Mission_ALTITUDE_RATE, Dynamic_Mission_FLIGHT_PATH_ANGLE,
       d_Mission_ALTITUDE_RATE__Mission_FLIGHT_PATH_ANGLE);
   (Dynamic_Mission_FLIGHT_PATH_ANGLE_RATE, Dynamic_Vehicle_Propulsion_THRUST_TOTAL,
       d_Mission_FLIGHT_PATH_ANGLE_RATE__Vehicle_Propulsion_THRUST_TOTAL);
   (Dynamic_Mission_FLIGHT_PATH_ANGLE_RATE, Dynamic_Vehicle_ANGLE_OF_ATTACK,
       d_Mission_FLIGHT_PATH_ANGLE_RATE__Vehicle_ANGLE_OF_ATTACK);
   (Dynamic_Mission_FLIGHT_PATH_ANGLE_RATE, Aircraft_Wing_INCIDENCE,
       d_Mission_FLIGHT_PATH_ANGLE_RATE__Wing_INCIDENCE);
   (Dynamic_Mission_FLIGHT_PATH_ANGLE_RATE, Dynamic_Vehicle_LIFT, d_Mission_FLIGHT_PATH_ANGLE_RATE__Vehicle_LIFT);
   (Dynamic_Mission_FLIGHT_PATH_ANGLE_RATE, Dynamic_Vehicle_MASS, d_Mission_FLIGHT_PATH_ANGLE_RATE__Vehicle_MASS);
   (Dynamic_Mission_FLIGHT_PATH_ANGLE_RATE, Dynamic_Mission_FLIGHT_PATH_ANGLE,
       d_Mission_FLIGHT_PATH_ANGLE_RATE__Mission_FLIGHT_PATH_ANGLE);
   (Dynamic_Mission_FLIGHT_PATH_ANGLE_RATE, Dynamic_Mission_VELOCITY,
       d_Mission_FLIGHT_PATH_ANGLE_RATE__Mission_VELOCITY);
   (Dynamic_Mission_VELOCITY_RATE, Dynamic_Vehicle_ANGLE_OF_ATTACK, d_Mission_VELOCITY_RATE__Vehicle_ANGLE_OF_ATTACK);
   (v_normal_force, Dynamic_Vehicle_ANGLE_OF_ATTACK, d_normal_force__Vehicle_ANGLE_OF_ATTACK);
   (v_fuselage_pitch, Dynamic_Vehicle_ANGLE_OF_ATTACK, d_fuselage_pitch__Vehicle_ANGLE_OF_ATTACK);
   (v_load_factor, Dynamic_Vehicle_ANGLE_OF_ATTACK, d_load_factor__Vehicle_ANGLE_OF_ATTACK);
   (Dynamic_Mission_VELOCITY_RATE, Aircraft_Wing_INCIDENCE, d_Mission_VELOCITY_RATE__Wing_INCIDENCE);
   (v_normal_force, Aircraft_Wing_INCIDENCE, d_normal_force__Wing_INCIDENCE);
   (v_fuselage_pitch, Aircraft_Wing_INCIDENCE, d_fuselage_pitch__Wing_INCIDENCE);
   (v_load_factor, Aircraft_Wing_INCIDENCE, d_load_factor__Wing_INCIDENCE);
   (Dynamic_Mission_DISTANCE_RATE, Dynamic_Mission_VELOCITY, d_Mission_DISTANCE_RATE__Mission_VELOCITY);
   (Dynamic_Mission_DISTANCE_RATE, Dynamic_Mission_FLIGHT_PATH_ANGLE,
       d_Mission_DISTANCE_RATE__Mission_FLIGHT_PATH_ANGLE);
   (v_normal_force, Dynamic_Vehicle_MASS, d_normal_force__Vehicle_MASS);
   (v_normal_force, Dynamic_Vehicle_LIFT, d_normal_force__Vehicle_LIFT);
   (v_normal_force, Dynamic_Vehicle_Propulsion_THRUST_TOTAL, d_normal_force__Vehicle_Propulsion_THRUST_TOTAL)].

(** Inputs, outputs and declared partials: /repo/aviary/mission/two_dof/ode/flight_path_eom.py L27-190 *)
Definition FlightPathEOM_flight (op : options) : comp := {|
  c_ins := [Dynamic_Vehicle_MASS;
            Dynamic_Vehicle_Propulsion_THRUST_TOTAL;
            Dynamic_Vehicle_LIFT;
            Dynamic_Vehicle_DRAG;
            Dynamic_Mission_VELOCITY;
            Dynamic_Mission_FLIGHT_PATH_ANGLE;
            Aircraft_Wing_INCIDENCE;
            Mission_Takeoff_ROLLING_FRICTION_COEFFICIENT;
            Dynamic_Vehicle_ANGLE_OF_ATTACK];
  c_outs := [Dynamic_Mission_VELOCITY_RATE;
             Dynamic_Mission_ALTITUDE_RATE;
             Dynamic_Mission_FLIGHT_PATH_ANGLE_RATE;
             Dynamic_Mission_DISTANCE_RATE;
             v_normal_force;
             v_fuselage_pitch;
             v_load_factor];
  c_decl := [(v_load_factor, Dynamic_Vehicle_LIFT, 0);
             (v_load_factor, Dynamic_Vehicle_MASS, 0);
             (v_load_factor, Dynamic_Mission_FLIGHT_PATH_ANGLE, 0);
             (v_load_factor, Dynamic_Vehicle_Propulsion_THRUST_TOTAL, 0);
             (v_load_factor, Aircraft_Wing_INCIDENCE, 0);
             (Dynamic_Mission_VELOCITY_RATE, Dynamic_Vehicle_Propulsion_THRUST_TOTAL, 0);
             (Dynamic_Mission_VELOCITY_RATE, Dynamic_Vehicle_DRAG, 0);
             (Dynamic_Mission_VELOCITY_RATE, Dynamic_Vehicle_MASS, 0);
             (Dynamic_Mission_VELOCITY_RATE, Dynamic_Mission_FLIGHT_PATH_ANGLE, 0);
             (Dynamic_Mission_VELOCITY_RATE, Dynamic_Vehicle_LIFT, 0);
             (Dynamic_Mission_VELOCITY_RATE, Aircraft_Wing_INCIDENCE, 0);
             (Dynamic_Mission_ALTITUDE_RATE, Dynamic_Mission_VELOCITY, 0);
             (Dynamic_Mission_ALTITUDE_RATE, Dynamic_Mission_FLIGHT_PATH_ANGLE, 0);
             (Dynamic_Mission_FLIGHT_PATH_ANGLE_RATE, Dynamic_Vehicle_Propulsion_THRUST_TOTAL, 0);
             (Dynamic_Mission_FLIGHT_PATH_ANGLE_RATE, Dynamic_Vehicle_ANGLE_OF_ATTACK, 0);
             (Dynamic_Mission_FLIGHT_PATH_ANGLE_RATE, Dynamic_Vehicle_LIFT, 0);
             (Dynamic_Mission_FLIGHT_PATH_ANGLE_RATE, Dynamic_Vehicle_MASS, 0);
             (Dynamic_Mission_FLIGHT_PATH_ANGLE_RATE, Dynamic_Mission_FLIGHT_PATH_ANGLE, 0);
             (Dynamic_Mission_FLIGHT_PATH_ANGLE_RATE, Dynamic_Mission_VELOCITY, 0);
             (Dynamic_Mission_FLIGHT_PATH_ANGLE_RATE, Aircraft_Wing_INCIDENCE, 0);
             (v_normal_force, Dynamic_Vehicle_ANGLE_OF_ATTACK, 0);
             (v_fuselage_pitch, Dynamic_Vehicle_ANGLE_OF_ATTACK, 0);
             (v_load_factor, Dynamic_Vehicle_ANGLE_OF_ATTACK, 0);
             (Dynamic_Mission_VELOCITY_RATE, Dynamic_Vehicle_ANGLE_OF_ATTACK, 0);
             (Dynamic_Mission_DISTANCE_RATE, Dynamic_Mission_VELOCITY, 0);
             (Dynamic_Mission_DISTANCE_RATE, Dynamic_Mission_FLIGHT_PATH_ANGLE, 0);
             (v_normal_force, Dynamic_Vehicle_MASS, 0);
             (v_normal_force, Dynamic_Vehicle_LIFT, 0);
             (v_normal_force, Dynamic_Vehicle_Propulsion_THRUST_TOTAL, 0);
             (v_normal_force, Aircraft_Wing_INCIDENCE, 0);
             (v_fuselage_pitch, Dynamic_Mission_FLIGHT_PATH_ANGLE, 180 / PI);
             (v_fuselage_pitch, Aircraft_Wing_INCIDENCE, 0)];
  c_run := FlightPathEOM_flight_compute op; c_jac := FlightPathEOM_flight_partials op |}.

(** The inputs that are scalars, shared by all nodes. *)
Definition FlightPathEOM_flight_shared : list string := [Aircraft_Wing_INCIDENCE;
    Mission_Takeoff_ROLLING_FRICTION_COEFFICIENT].

(** FlightPathEOM.compute, /repo/aviary/mission/two_dof/ode/flight_path_eom.py L192-242 with ground_roll = True *)
Definition FlightPathEOM_ground_compute (op : options) (e : env) : list (string * R) :=
  let grav_english := on op Mission_GRAVITY in  (* L193 *)
  let mu := e Mission_Takeoff_ROLLING_FRICTION_COEFFICIENT in  (* L195 *)
  let weight := e Dynamic_Vehicle_MASS * GRAV_ENGLISH_LBM in  (* L199 *)
  let thrust := e Dynamic_Vehicle_Propulsion_THRUST_TOTAL in  (* L200 *)
  let incremented_lift := e Dynamic_Vehicle_LIFT in  (* L201 *)
  let incremented_drag := e Dynamic_Vehicle_DRAG in  (* L202 *)
  let TAS := e Dynamic_Mission_VELOCITY in  (* L203 *)
  let gamma := e Dynamic_Mission_FLIGHT_PATH_ANGLE in  (* L204 *)
  let i_wing := e Aircraft_Wing_INCIDENCE in  (* L205 *)
  let alpha := e Aircraft_Wing_INCIDENCE in  (* L207 *)
  let thrust_along_flightpath := thrust * cos ((alpha - i_wing) * PI / 180) in  (* L211 *)
  let thrust_across_flightpath := thrust * sin ((alpha - i_wing) * PI / 180) in  (* L212 *)
  let normal_force := weight - incremented_lift - thrust_across_flightpath in  (* L213 *)
  let o_Mission_VELOCITY_RATE := (thrust_along_flightpath - incremented_drag - weight * sin gamma - mu * normal_force)
      * grav_english / weight in  (* L215 *)
  let o_Mission_DISTANCE_RATE := TAS * cos gamma in  (* L234 *)
  let o_normal_force := normal_force in  (* L236 *)
  let o_fuselage_pitch := gamma * 180 / PI - i_wing + alpha in  (* L238 *)
  let load_factor := (incremented_lift + thrust_across_flightpath) / (weight * cos gamma) in  (* L240 *)
  let o_load_factor := load_factor in  (* L242 *)
  [(Dynamic_Mission_VELOCITY_RATE, o_Mission_VELOCITY_RATE);
   (Dynamic_Mission_DISTANCE_RATE, o_Mission_DISTANCE_RATE);
   (v_normal_force, o_normal_force);
   (v_fuselage_pitch, o_fuselage_pitch);
   (v_load_factor, o_load_factor)].

(** FlightPathEOM.compute_partials, /repo/aviary/mission/two_dof/ode/flight_path_eom.py L244-393 *)
Definition FlightPathEOM_ground_partials (op : options) (e : env) : list (string * string * R) :=
  let grav_english := on op Mission_GRAVITY in  (* L245 *)
  let mu := e Mission_Takeoff_ROLLING_FRICTION_COEFFICIENT in  (* L247 *)
  let weight := e Dynamic_Vehicle_MASS * GRAV_ENGLISH_LBM in  (* L251 *)
  let thrust := e Dynamic_Vehicle_Propulsion_THRUST_TOTAL in  (* L252 *)
  let incremented_lift := e Dynamic_Vehicle_LIFT in  (* L253 *)
  let incremented_drag := e Dynamic_Vehicle_DRAG in  (* L254 *)
  let TAS := e Dynamic_Mission_VELOCITY in  (* L255 *)
  let gamma := e Dynamic_Mission_FLIGHT_PATH_ANGLE in  (* L256 *)
  let i_wing := e Aircraft_Wing_INCIDENCE in  (* L257 *)
  let alpha := i_wing in  (* L259 *)
  let nn := on op v_num_nodes in  (* L263 *)
  let thrust_along_flightpath := thrust * cos ((alpha - i_wing) * PI / 180) in  (* L265 *)
  let thrust_across_flightpath := thrust * sin ((alpha - i_wing) * PI / 180) in  (* L266 *)
  let dTAlF_dThrust := cos ((alpha - i_wing) * PI / 180) in  (* L268 *)
  let dTAlF_dAlpha := - thrust * sin ((alpha - i_wing) * PI / 180) * PI / 180 in  (* L269 *)
  let dTAlF_dIwing := thrust * sin ((alpha - i_wing) * PI / 180) * PI / 180 in  (* L270 *)
  let dTAcF_dThrust := sin ((alpha - i_wing) * PI / 180) in  (* L272 *)
  let dTAcF_dAlpha := thrust * cos ((alpha - i_wing) * PI / 180) * PI / 180 in  (* L273 *)
  let dTAcF_dIwing := - thrust * cos ((alpha - i_wing) * PI / 180) * PI / 180 in  (* L274 *)
  let d_load_factor__Vehicle_LIFT := 1 / (weight * cos gamma) in  (* L276 *)
  let d_load_factor__Vehicle_MASS := - (incremented_lift + thrust_across_flightpath) / (weight ^ 2 * cos gamma) *
      GRAV_ENGLISH_LBM in  (* L277 *)
  let d_load_factor__Mission_FLIGHT_PATH_ANGLE := - (incremented_lift + thrust_across_flightpath) / (weight * cos
      gamma ^ 2) * - sin gamma in  (* L282 *)
  let d_load_factor__Vehicle_Propulsion_THRUST_TOTAL := dTAcF_dThrust / (weight * cos gamma) in  (* L287 *)
  let normal_force := weight - incremented_lift - thrust_across_flightpath in  (* L291 *)
  let dNF_dWeight := 1 in  (* L294 *)
  let dNF_dLift := - 1 in  (* L297 *)
  let dNF_dThrust := - 1 * dTAcF_dThrust in  (* L300 *)
  let dNF_dIwing := - 1 * dTAcF_dIwing in  (* L303 *)
  let d_Mission_VELOCITY_RATE__Vehicle_Propulsion_THRUST_TOTAL := (dTAlF_dThrust - mu * dNF_dThrust) * grav_english /
      weight in  (* L306 *)
  let d_Mission_VELOCITY_RATE__Vehicle_DRAG := - grav_english / weight in  (* L310 *)
  let d_Mission_VELOCITY_RATE__Vehicle_MASS := grav_english * GRAV_ENGLISH_LBM * (weight * (- sin gamma - mu *
      dNF_dWeight) - (thrust_along_flightpath - incremented_drag - weight * sin gamma - mu * normal_force)) / weight ^
      2 in  (* L311 *)
  let d_Mission_VELOCITY_RATE__Mission_FLIGHT_PATH_ANGLE := - cos gamma * grav_english in  (* L325 *)
  let d_Mission_VELOCITY_RATE__Vehicle_LIFT := grav_english * (- mu * dNF_dLift) / weight in  (* L328 *)
  let d_Mission_VELOCITY_RATE__Takeoff_ROLLING_FRICTION_COEFFICIENT := - normal_force * grav_english / weight in  (* L332 *)
  let d_Mission_DISTANCE_RATE__Mission_VELOCITY := cos gamma in  (* L388 *)
  let d_Mission_DISTANCE_RATE__Mission_FLIGHT_PATH_ANGLE := - TAS * sin gamma in  (* L389 *)
  let d_normal_force__Vehicle_MASS := dNF_dWeight * GRAV_ENGLISH_LBM in  (* L391 *)
  let d_normal_force__Vehicle_LIFT := dNF_dLift in  (* L392 *)
  let d_normal_force__Vehicle_Propulsion_THRUST_TOTAL := dNF_dThrust in  (* L393 *)
  [(v_load_factor, Dynamic_Vehicle_LIFT, d_load_factor__Vehicle_LIFT);
   (v_load_factor, Dynamic_Vehicle_MASS, d_load_factor__Vehicle_MASS);
   (v_load_factor, Dynamic_Mission_FLIGHT_PATH_ANGLE, d_load_factor__Mission_FLIGHT_PATH_ANGLE);
   (v_load_factor, Dynamic_Vehicle_Propulsion_THRUST_TOTAL, d_load_factor__Vehicle_Propulsion_THRUST_TOTAL);
   (Dynamic_Mission_VELOCITY_RATE, Dynamic_Vehicle_Propulsion_THRUST_TOTAL,
       d_Mission_VELOCITY_RATE__Vehicle_Propulsion_THRUST_TOTAL);
   (Dynamic_Mission_VELOCITY_RATE, Dynamic_Vehicle_DRAG, d_Mission_VELOCITY_RATE__Vehicle_DRAG);
   (Dynamic_Mission_VELOCITY_RATE, Dynamic_Vehicle_MASS, d_Mission_VELOCITY_RATE__Vehicle_MASS);
   (Dynamic_Mission_VELOCITY_RATE, Dynamic_Mission_FLIGHT_PATH_ANGLE,
       d_Mission_VELOCITY_RATE__Mission_FLIGHT_PATH_ANGLE);
   (Dynamic_Mission_VELOCITY_RATE, Dynamic_Vehicle_LIFT, d_Mission_VELOCITY_RATE__Vehicle_LIFT);
   (Dynamic_Mission_VELOCITY_RATE, Mission_Takeoff_ROLLING_FRICTION_COEFFICIENT,
       d_Mission_VELOCITY_RATE__Takeoff_ROLLING_FRICTION_COEFFICIENT);
   (Dynamic_Mission_DISTANCE_RATE, Dynamic_Mission_VELOCITY, d_Mission_DISTANCE_RATE__Mission_VELOCITY);
   (Dynamic_Mission_DISTANCE_RATE, Dynamic_Mission_FLIGHT_PATH_ANGLE,
       d_Mission_DISTANCE_RATE__Mission_FLIGHT_PATH_ANGLE);
   (v_normal_force, Dynamic_Vehicle_MASS, d_normal_force__Vehicle_MASS);
   (v_normal_force, Dynamic_Vehicle_LIFT, d_normal_force__Vehicle_LIFT);
   (v_normal_force, Dynamic_Vehicle_Propulsion_THRUST_TOTAL, d_normal_force__Vehicle_Propulsion_THRUST_TOTAL)].

(** Inputs, outputs and declared partials: /repo/aviary/mission/two_dof/ode/flight_path_eom.py L27-190 *)
Definition FlightPathEOM_ground (op : options) : comp := {|
  c_ins := [Dynamic_Vehicle_MASS;
            Dynamic_Vehicle_Propulsion_THRUST_TOTAL;
            Dynamic_Vehicle_LIFT;
            Dynamic_Vehicle_DRAG;
            Dynamic_Mission_VELOCITY;
            Dynamic_Mission_FLIGHT_PATH_ANGLE;
            Aircraft_Wing_INCIDENCE;
            Mission_Takeoff_ROLLING_FRICTION_COEFFICIENT];
  c_outs := [Dynamic_Mission_VELOCITY_RATE;
             Dynamic_Mission_DISTANCE_RATE;
             v_normal_force;
             v_fuselage_pitch;
             v_load_factor];
  c_decl := [(v_load_factor, Dynamic_Vehicle_LIFT, 0);
             (v_load_factor, Dynamic_Vehicle_MASS, 0);
             (v_load_factor, Dynamic_Mission_FLIGHT_PATH_ANGLE, 0);
             (v_load_factor, Dynamic_Vehicle_Propulsion_THRUST_TOTAL, 0);
             (v_load_factor, Aircraft_Wing_INCIDENCE, 0);
             (Dynamic_Mission_VELOCITY_RATE, Dynamic_Vehicle_Propulsion_THRUST_TOTAL, 0);
             (Dynamic_Mission_VELOCITY_RATE, Dynamic_Vehicle_DRAG, 0);
             (Dynamic_Mission_VELOCITY_RATE, Dynamic_Vehicle_MASS, 0);
             (Dynamic_Mission_VELOCITY_RATE, Dynamic_Mission_FLIGHT_PATH_ANGLE, 0);
             (Dynamic_Mission_VELOCITY_RATE, Dynamic_Vehicle_LIFT, 0);
             (Dynamic_Mission_VELOCITY_RATE, Aircraft_Wing_INCIDENCE, 0);
             (Dynamic_Mission_VELOCITY_RATE, Mission_Takeoff_ROLLING_FRICTION_COEFFICIENT, 0);
             (Dynamic_Mission_DISTANCE_RATE, Dynamic_Mission_VELOCITY, 0);
             (Dynamic_Mission_DISTANCE_RATE, Dynamic_Mission_FLIGHT_PATH_ANGLE, 0);
             (v_normal_force, Dynamic_Vehicle_MASS, 0);
             (v_normal_force, Dynamic_Vehicle_LIFT, 0);
             (v_normal_force, Dynamic_Vehicle_Propulsion_THRUST_TOTAL, 0);
             (v_normal_force, Aircraft_Wing_INCIDENCE, 0);
             (v_fuselage_pitch, Dynamic_Mission_FLIGHT_PATH_ANGLE, 180 / PI);
             (v_fuselage_pitch, Aircraft_Wing_INCIDENCE, 0)];
  c_run := FlightPathEOM_ground_compute op; c_jac := FlightPathEOM_ground_partials op |}.

(** The inputs that are scalars, shared by all nodes. *)
Definition FlightPathEOM_ground_shared : list string := [Aircraft_Wing_INCIDENCE;
    Mission_Takeoff_ROLLING_FRICTION_COEFFICIENT].

(** TakeoffEOM.compute, /repo/aviary/mission/two_dof/ode/takeoff_eom.py L217-278 with ground_roll = False *)
Definition TakeoffEOM_flight_compute (op : options) (e : env) : list (string * R) :=
  let grav_english := on op Mission_GRAVITY in  (* L218 *)
  let rotation := ob op v_rotation in  (* L220 *)
  let weight := e Dynamic_Vehicle_MASS * GRAV_ENGLISH_LBM in  (* L222 *)
  let thrust := e Dynamic_Vehicle_Propulsion_THRUST_TOTAL in  (* L223 *)
  let incremented_lift := e Dynamic_Vehicle_LIFT in  (* L224 *)
  let incremented_drag := e Dynamic_Vehicle_DRAG in  (* L225 *)
  let TAS := e Dynamic_Mission_VELOCITY in  (* L226 *)
  let gamma := e Dynamic_Mission_FLIGHT_PATH_ANGLE in  (* L227 *)
  let i_wing := e Aircraft_Wing_INCIDENCE in  (* L228 *)
  let alpha := e Dynamic_Vehicle_ANGLE_OF_ATTACK in  (* L233 *)
  let thrust_along_flightpath := thrust * cos ((alpha - i_wing) * (PI / 180)) in  (* L235 *)
  let thrust_across_flightpath := thrust * sin ((alpha - i_wing) * (PI / 180)) in  (* L236 *)
  let '(mu, normal_force, o_normal_force) :=  (* L238 *)
    if rotation then
      let mu := e Mission_Takeoff_ROLLING_FRICTION_COEFFICIENT in  (* L239 *)
      let normal_force := weight - incremented_lift - thrust_across_flightpath in  (* L240 *)
      let normal_force := if ltb normal_force 0 then 0 else normal_force in  (* L241 *)
      let o_normal_force := normal_force in  (* L242 *)
      (mu, normal_force, o_normal_force)
    else
      let mu := 0 in  (* L245 *)
      let normal_force := 0 in  (* L246 *)
      let o_normal_force := normal_force in  (* L247 *)
      (mu, normal_force, o_normal_force) in
  let cos_gamma := cos gamma in  (* L249 *)
  let sin_gamma := sin gamma in  (* L250 *)
  let o_Mission_VELOCITY_RATE := (thrust_along_flightpath - incremented_drag - weight * sin_gamma - mu * normal_force)
      * grav_english / weight in  (* L252 *)
  let o_Mission_FLIGHT_PATH_ANGLE_RATE :=  (* L258 *)
    if rotation then
      let o_Mission_FLIGHT_PATH_ANGLE_RATE := 0 in  (* L259 *)
      o_Mission_FLIGHT_PATH_ANGLE_RATE
    else
      let o_Mission_FLIGHT_PATH_ANGLE_RATE := (thrust_across_flightpath + incremented_lift - weight * cos_gamma) *
          grav_english / (TAS * weight) in  (* L261 *)
      o_Mission_FLIGHT_PATH_ANGLE_RATE in
  let o_Mission_ALTITUDE_RATE := TAS * sin_gamma in  (* L267 *)
  let o_Mission_DISTANCE_RATE := TAS * cos_gamma in  (* L268 *)
  let o_fuselage_pitch := gamma * (1 / (PI / 180)) - i_wing + alpha in  (* L270 *)
  let load_factor := (incremented_lift + thrust_across_flightpath) / (weight * cos_gamma) in  (* L272 *)
  let o_load_factor := load_factor in  (* L273 *)
  let o_angle_of_attack_rate :=  (* L275 *)
    if rotation then
      let o_angle_of_attack_rate := on op v_rotation_pitch_rate in  (* L276 *)
      o_angle_of_attack_rate
    else
      let o_angle_of_attack_rate := 0 in  (* L278 *)
      o_angle_of_attack_rate in
  [(v_normal_force, o_normal_force);
   (Dynamic_Mission_VELOCITY_RATE, o_Mission_VELOCITY_RATE);
   (Dynamic_Mission_FLIGHT_PATH_ANGLE_RATE, o_Mission_FLIGHT_PATH_ANGLE_RATE);
   (Dynamic_Mission_ALTITUDE_RATE, o_Mission_ALTITUDE_RATE);
   (Dynamic_Mission_DISTANCE_RATE, o_Mission_DISTANCE_RATE);
   (v_fuselage_pitch, o_fuselage_pitch);
   (v_load_factor, o_load_factor);
   (v_angle_of_attack_rate, o_angle_of_attack_rate)].

(** TakeoffEOM.compute_partials, /repo/aviary/mission/two_dof/ode/takeoff_eom.py L280-445 *)
Definition TakeoffEOM_flight_partials (op : options) (e : env) : list (string * string * R) :=
  let grav_english := on op Mission_GRAVITY in  (* L281 *)
  let rotation := ob op v_rotation in  (* L283 *)
  let nn := on op v_num_nodes in  (* L284 *)
  let mu :=  (* L286 *)
    if rotation then
      let mu := e Mission_Takeoff_ROLLING_FRICTION_COEFFICIENT in  (* L287 *)
      mu
    else
      let mu := 0 in  (* L289 *)
      mu in
  let weight := e Dynamic_Vehicle_MASS * GRAV_ENGLISH_LBM in  (* L291 *)
  let thrust := e Dynamic_Vehicle_Propulsion_THRUST_TOTAL in  (* L292 *)
  let incremented_lift := e Dynamic_Vehicle_LIFT in  (* L293 *)
  let incremented_drag := e Dynamic_Vehicle_DRAG in  (* L294 *)
  let TAS := e Dynamic_Mission_VELOCITY in  (* L295 *)
  let gamma := e Dynamic_Mission_FLIGHT_PATH_ANGLE in  (* L296 *)
  let i_wing := e Aircraft_Wing_INCIDENCE in  (* L297 *)
  let alpha := e Dynamic_Vehicle_ANGLE_OF_ATTACK in  (* L302 *)
  let cos_alpha := cos ((alpha - i_wing) * (PI / 180)) in  (* L304 *)
  let sin_alpha := sin ((alpha - i_wing) * (PI / 180)) in  (* L305 *)
  let cos_gamma := cos gamma in  (* L306 *)
  let sin_gamma := sin gamma in  (* L307 *)
  let thrust_along_flightpath := thrust * cos_alpha in  (* L309 *)
  let thrust_across_flightpath := thrust * sin_alpha in  (* L310 *)
  let dTAlF_dThrust := cos_alpha in  (* L312 *)
  let dTAlF_dAlpha := - thrust * sin_alpha * (PI / 180) in  (* L313 *)
  let dTAlF_dIwing := thrust * sin_alpha * (PI / 180) in  (* L314 *)
  let dTAcF_dThrust := sin_alpha in  (* L316 *)
  let dTAcF_dAlpha := thrust * cos_alpha * (PI / 180) in  (* L317 *)
  let dTAcF_dIwing := - thrust * cos_alpha * (PI / 180) in  (* L318 *)
  let d_load_factor__Vehicle_LIFT := 1 / (weight * cos_gamma) in  (* L320 *)
  let d_load_factor__Vehicle_MASS := - (incremented_lift + thrust_across_flightpath) / (weight ^ 2 * cos_gamma) *
      GRAV_ENGLISH_LBM in  (* L321 *)
  let d_load_factor__Mission_FLIGHT_PATH_ANGLE := - (incremented_lift + thrust_across_flightpath) / (weight *
      cos_gamma ^ 2) * - sin_gamma in  (* L326 *)
  let d_load_factor__Vehicle_Propulsion_THRUST_TOTAL := dTAcF_dThrust / (weight * cos_gamma) in  (* L331 *)
  let normal_force :=  (* L335 *)
    if rotation then
      let normal_force := weight - incremented_lift - thrust_across_flightpath in  (* L336 *)
      normal_force
    else
      let normal_force := 0 in  (* L338 *)
      normal_force in
  let idx := ltb normal_force 0 in  (* L340 *)
  let normal_force := if idx then 0 else normal_force in  (* L341 *)
  let dNF_dWeight := 1 in  (* L343 *)
  let dNF_dWeight := if idx then 0 else dNF_dWeight in  (* L344 *)
  let dNF_dLift := - 1 in  (* L346 *)
  let dNF_dLift := if idx then 0 else dNF_dLift in  (* L347 *)
  let dNF_dThrust := - 1 * dTAcF_dThrust in  (* L349 *)
  let dNF_dThrust := if idx then 0 else dNF_dThrust in  (* L350 *)
  let dNF_dIwing := - 1 * dTAcF_dIwing in  (* L352 *)
  let dNF_dIwing := if idx then 0 else dNF_dIwing in  (* L353 *)
  let d_Mission_VELOCITY_RATE__Vehicle_Propulsion_THRUST_TOTAL := (dTAlF_dThrust - mu * dNF_dThrust) * grav_english /
      weight in  (* L355 *)
  let d_Mission_VELOCITY_RATE__Vehicle_DRAG := - grav_english / weight in  (* L359 *)
  let d_Mission_VELOCITY_RATE__Vehicle_MASS := grav_english * GRAV_ENGLISH_LBM * (weight * (- sin_gamma - mu *
      dNF_dWeight) - (thrust_along_flightpath - incremented_drag - weight * sin_gamma - mu * normal_force)) / weight ^
      2 in  (* L360 *)
  let d_Mission_VELOCITY_RATE__Mission_FLIGHT_PATH_ANGLE := - cos_gamma * grav_english in  (* L374 *)
  let d_Mission_VELOCITY_RATE__Vehicle_LIFT := grav_english * (- mu * dNF_dLift) / weight in  (* L377 *)
  let d_Mission_VELOCITY_RATE__Takeoff_ROLLING_FRICTION_COEFFICIENT := - normal_force * grav_english / weight in  (* L380 *)
  let d_Mission_ALTITUDE_RATE__Mission_VELOCITY := sin_gamma in  (* L384 *)
  let d_Mission_ALTITUDE_RATE__Mission_FLIGHT_PATH_ANGLE := TAS * cos_gamma in  (* L385 *)
  let '(d_Mission_FLIGHT_PATH_ANGLE_RATE__Vehicle_Propulsion_THRUST_TOTAL,
      d_Mission_FLIGHT_PATH_ANGLE_RATE__Vehicle_ANGLE_OF_ATTACK, d_Mission_FLIGHT_PATH_ANGLE_RATE__Wing_INCIDENCE,
      d_Mission_FLIGHT_PATH_ANGLE_RATE__Vehicle_LIFT, d_Mission_FLIGHT_PATH_ANGLE_RATE__Vehicle_MASS,
      d_Mission_FLIGHT_PATH_ANGLE_RATE__Mission_FLIGHT_PATH_ANGLE, d_Mission_FLIGHT_PATH_ANGLE_RATE__Mission_VELOCITY)
      :=  (* L387 *)
    if negb (rotation) then
      let d_Mission_FLIGHT_PATH_ANGLE_RATE__Vehicle_Propulsion_THRUST_TOTAL := dTAcF_dThrust * grav_english / (TAS *
          weight) in  (* L389 *)
      let d_Mission_FLIGHT_PATH_ANGLE_RATE__Vehicle_ANGLE_OF_ATTACK := dTAcF_dAlpha * grav_english / (TAS * weight) in  (* L393 *)
      let d_Mission_FLIGHT_PATH_ANGLE_RATE__Wing_INCIDENCE := dTAcF_dIwing * grav_english / (TAS * weight) in  (* L396 *)
      let d_Mission_FLIGHT_PATH_ANGLE_RATE__Vehicle_LIFT := grav_english / (TAS * weight) in  (* L399 *)
      let d_Mission_FLIGHT_PATH_ANGLE_RATE__Vehicle_MASS := grav_english / TAS * GRAV_ENGLISH_LBM * (-
          thrust_across_flightpath / weight ^ 2 - incremented_lift / weight ^ 2) in  (* L402 *)
      let d_Mission_FLIGHT_PATH_ANGLE_RATE__Mission_FLIGHT_PATH_ANGLE := weight * sin_gamma * grav_english / (TAS *
          weight) in  (* L407 *)
      let d_Mission_FLIGHT_PATH_ANGLE_RATE__Mission_VELOCITY := - ((thrust_across_flightpath + incremented_lift -
          weight * cos_gamma) * grav_english / (TAS ^ 2 * weight)) in  (* L411 *)
      (d_Mission_FLIGHT_PATH_ANGLE_RATE__Vehicle_Propulsion_THRUST_TOTAL,
          d_Mission_FLIGHT_PATH_ANGLE_RATE__Vehicle_ANGLE_OF_ATTACK, d_Mission_FLIGHT_PATH_ANGLE_RATE__Wing_INCIDENCE,
          d_Mission_FLIGHT_PATH_ANGLE_RATE__Vehicle_LIFT, d_Mission_FLIGHT_PATH_ANGLE_RATE__Vehicle_MASS,
          d_Mission_FLIGHT_PATH_ANGLE_RATE__Mission_FLIGHT_PATH_ANGLE,
          d_Mission_FLIGHT_PATH_ANGLE_RATE__Mission_VELOCITY)
    else
      (0, 0, 0, 0, 0, 0, 0) in
  let d_Mission_VELOCITY_RATE__Wing_INCIDENCE := (dTAlF_dIwing - mu * dNF_dIwing) * grav_english / weight in  (* L419 *)
  let d_normal_force__Wing_INCIDENCE :=  (* L422 *)
    if rotation then
      let d_normal_force__Wing_INCIDENCE := dNF_dIwing in  (* L423 *)
      d_normal_force__Wing_INCIDENCE
    else
      0 in
  let d_fuselage_pitch__Wing_INCIDENCE := - 1 in  (* L424 *)
  let d_load_factor__Wing_INCIDENCE := dTAcF_dIwing / (weight * cos_gamma) in  (* L425 *)
  let dNF_dAlpha := - 1 * dTAcF_dAlpha in  (* L428 *)
  let dNF_dAlpha := if idx then 0 else dNF_dAlpha in  (* L429 *)
  let d_Mission_VELOCITY_RATE__Vehicle_ANGLE_OF_ATTACK := (dTAlF_dAlpha - mu * dNF_dAlpha) * grav_english / weight in  (* L431 *)
  let d_normal_force__Vehicle_ANGLE_OF_ATTACK :=  (* L434 *)
    if rotation then
      let d_normal_force__Vehicle_ANGLE_OF_ATTACK := dNF_dAlpha in  (* L435 *)
      d_normal_force__Vehicle_ANGLE_OF_ATTACK
    else
      0 in
  let d_fuselage_pitch__Vehicle_ANGLE_OF_ATTACK := 1 in  (* L436 *)
  let d_load_factor__Vehicle_ANGLE_OF_ATTACK := dTAcF_dAlpha / (weight * cos_gamma) in  (* L437 *)
  let d_Mission_DISTANCE_RATE__Mission_VELOCITY := cos_gamma in  (* L439 *)
  let d_Mission_DISTANCE_RATE__Mission_FLIGHT_PATH_ANGLE := - TAS * sin_gamma in  (* L440 *)
  let '(d_normal_force__Vehicle_MASS, d_normal_force__Vehicle_LIFT, d_normal_force__Vehicle_Propulsion_THRUST_TOTAL)
      :=  (* L442 *)
    if rotation then
      let d_normal_force__Vehicle_MASS := dNF_dWeight * GRAV_ENGLISH_LBM in  (* L443 *)
      let d_normal_force__Vehicle_LIFT := dNF_dLift in  (* L444 *)
      let d_normal_force__Vehicle_Propulsion_THRUST_TOTAL := dNF_dThrust in  (* L445 *)
      (d_normal_force__Vehicle_MASS, d_normal_force__Vehicle_LIFT, d_normal_force__Vehicle_Propulsion_THRUST_TOTAL)
    else
      (0, 0, 0) in
  [(v_load_factor, Dynamic_Vehicle_LIFT, d_load_factor__Vehicle_LIFT);
   (v_load_factor, Dynamic_Vehicle_MASS, d_load_factor__Vehicle_MASS);
   (v_load_factor, Dynamic_Mission_FLIGHT_PATH_ANGLE, d_load_factor__Mission_FLIGHT_PATH_ANGLE);
   (v_load_factor, Dynamic_Vehicle_Propulsion_THRUST_TOTAL, d_load_factor__Vehicle_Propulsion_THRUST_TOTAL);
   (Dynamic_Mission_VELOCITY_RATE, Dynamic_Vehicle_Propulsion_THRUST_TOTAL,
       d_Mission_VELOCITY_RATE__Vehicle_Propulsion_THRUST_TOTAL);
   (Dynamic_Mission_VELOCITY_RATE, Dynamic_Vehicle_DRAG, d_Mission_VELOCITY_RATE__Vehicle_DRAG);
   (Dynamic_Mission_VELOCITY_RATE, Dynamic_Vehicle_MASS, d_Mission_VELOCITY_RATE__Vehicle_MASS);
   (Dynamic_Mission_VELOCITY_RATE, Dynamic_Mission_FLIGHT_PATH_ANGLE,
       d_Mission_VELOCITY_RATE__Mission_FLIGHT_PATH_ANGLE);
   (Dynamic_Mission_VELOCITY_RATE, Dynamic_Vehicle_LIFT, d_Mission_VELOCITY_RATE__Vehicle_LIFT);
   (Dynamic_Mission_VELOCITY_RATE, Mission_Takeoff_ROLLING_FRICTION_COEFFICIENT,
       d_Mission_VELOCITY_RATE__Takeoff_ROLLING_FRICTION_COEFFICIENT);
   (Dynamic_Mission_ALTITUDE_RATE, Dynamic_Mission_VELOCITY, d_Mission_ALTITUDE_RATE__Mission_VELOCITY);
   (Dynamic_Mission_ALTITUDE_RATE, Dynamic_Mission_FLIGHT_PATH_ANGLE,
       d_Mission_ALTITUDE_RATE__Mission_FLIGHT_PATH_ANGLE);
   (Dynamic_Mission_FLIGHT_PATH_ANGLE_RATE, Dynamic_Vehicle_Propulsion_THRUST_TOTAL,
       d_Mission_FLIGHT_PATH_ANGLE_RATE__Vehicle_Propulsion_THRUST_TOTAL);
   (Dynamic_Mission_FLIGHT_PATH_ANGLE_RATE, Dynamic_Vehicle_ANGLE_OF_ATTACK,
       d_Mission_FLIGHT_PATH_ANGLE_RATE__Vehicle_ANGLE_OF_ATTACK);
   (Dynamic_Mission_FLIGHT_PATH_ANGLE_RATE, Aircraft_Wing_INCIDENCE,
       d_Mission_FLIGHT_PATH_ANGLE_RATE__Wing_INCIDENCE);
   (Dynamic_Mission_FLIGHT_PATH_ANGLE_RATE, Dynamic_Vehicle_LIFT, d_Mission_FLIGHT_PATH_ANGLE_RATE__Vehicle_LIFT);
   (Dynamic_Mission_FLIGHT_PATH_ANGLE_RATE, Dynamic_Vehicle_MASS, d_Mission_FLIGHT_PATH_ANGLE_RATE__Vehicle_MASS);
   (Dynamic_Mission_FLIGHT_PATH_ANGLE_RATE, Dynamic_Mission_FLIGHT_PATH_ANGLE,
       d_Mission_FLIGHT_PATH_ANGLE_RATE__Mission_FLIGHT_PATH_ANGLE);
   (Dynamic_Mission_FLIGHT_PATH_ANGLE_RATE, Dynamic_Mission_VELOCITY,
       d_Mission_FLIGHT_PATH_ANGLE_RATE__Mission_VELOCITY);
   (Dynamic_Mission_VELOCITY_RATE, Aircraft_Wing_INCIDENCE, d_Mission_VELOCITY_RATE__Wing_INCIDENCE);
   (v_normal_force, Aircraft_Wing_INCIDENCE, d_normal_force__Wing_INCIDENCE);
   (v_fuselage_pitch, Aircraft_Wing_INCIDENCE, d_fuselage_pitch__Wing_INCIDENCE);
   (v_load_factor, Aircraft_Wing_INCIDENCE, d_load_factor__Wing_INCIDENCE);
   (Dynamic_Mission_VELOCITY_RATE, Dynamic_Vehicle_ANGLE_OF_ATTACK, d_Mission_VELOCITY_RATE__Vehicle_ANGLE_OF_ATTACK);
   (v_normal_force, Dynamic_Vehicle_ANGLE_OF_ATTACK, d_normal_force__Vehicle_ANGLE_OF_ATTACK);
   (v_fuselage_pitch, Dynamic_Vehicle_ANGLE_OF_ATTACK, d_fuselage_pitch__Vehicle_ANGLE_OF_ATTACK);
   (v_load_factor, Dynamic_Vehicle_ANGLE_OF_ATTACK, d_load_factor__Vehicle_ANGLE_OF_ATTACK);
   (Dynamic_Mission_DISTANCE_RATE, Dynamic_Mission_VELOCITY, d_Mission_DISTANCE_RATE__Mission_VELOCITY);
   (Dynamic_Mission_DISTANCE_RATE, Dynamic_Mission_FLIGHT_PATH_ANGLE,
       d_Mission_DISTANCE_RATE__Mission_FLIGHT_PATH_ANGLE);
   (v_normal_force, Dynamic_Vehicle_MASS, d_normal_force__Vehicle_MASS);
   (v_normal_force, Dynamic_Vehicle_LIFT, d_normal_force__Vehicle_LIFT);
   (v_normal_force, Dynamic_Vehicle_Propulsion_THRUST_TOTAL, d_normal_force__Vehicle_Propulsion_THRUST_TOTAL)].

(** Inputs, outputs and declared partials: /repo/aviary/mission/two_dof/ode/takeoff_eom.py L55-215 *)
Definition TakeoffEOM_flight (op : options) : comp := {|
  c_ins := [Dynamic_Vehicle_MASS;
            Dynamic_Vehicle_Propulsion_THRUST_TOTAL;
            Dynamic_Vehicle_LIFT;
            Dynamic_Vehicle_DRAG;
            Dynamic_Mission_VELOCITY;
            Dynamic_Mission_FLIGHT_PATH_ANGLE;
            Aircraft_Wing_INCIDENCE;
            Mission_Takeoff_ROLLING_FRICTION_COEFFICIENT;
            Dynamic_Vehicle_ANGLE_OF_ATTACK];
  c_outs := [Dynamic_Mission_VELOCITY_RATE;
             Dynamic_Mission_ALTITUDE_RATE;
             Dynamic_Mission_FLIGHT_PATH_ANGLE_RATE;
             Dynamic_Mission_DISTANCE_RATE;
             v_normal_force;
             v_fuselage_pitch;
             v_load_factor;
             v_angle_of_attack_rate];
  c_decl := [(v_load_factor, Dynamic_Vehicle_LIFT, 0);
             (v_load_factor, Dynamic_Vehicle_MASS, 0);
             (v_load_factor, Dynamic_Mission_FLIGHT_PATH_ANGLE, 0);
             (v_load_factor, Dynamic_Vehicle_Propulsion_THRUST_TOTAL, 0);
             (v_load_factor, Aircraft_Wing_INCIDENCE, 0);
             (Dynamic_Mission_VELOCITY_RATE, Dynamic_Vehicle_Propulsion_THRUST_TOTAL, 0);
             (Dynamic_Mission_VELOCITY_RATE, Dynamic_Vehicle_DRAG, 0);
             (Dynamic_Mission_VELOCITY_RATE, Dynamic_Vehicle_MASS, 0);
             (Dynamic_Mission_VELOCITY_RATE, Dynamic_Mission_FLIGHT_PATH_ANGLE, 0);
             (Dynamic_Mission_VELOCITY_RATE, Dynamic_Vehicle_LIFT, 0);
             (Dynamic_Mission_VELOCITY_RATE, Aircraft_Wing_INCIDENCE, 0);
             (Dynamic_Mission_VELOCITY_RATE, Mission_Takeoff_ROLLING_FRICTION_COEFFICIENT, 0);
             (Dynamic_Mission_ALTITUDE_RATE, Dynamic_Mission_VELOCITY, 0);
             (Dynamic_Mission_ALTITUDE_RATE, Dynamic_Mission_FLIGHT_PATH_ANGLE, 0);
             (Dynamic_Mission_FLIGHT_PATH_ANGLE_RATE, Dynamic_Vehicle_Propulsion_THRUST_TOTAL, 0);
             (Dynamic_Mission_FLIGHT_PATH_ANGLE_RATE, Dynamic_Vehicle_LIFT, 0);
             (Dynamic_Mission_FLIGHT_PATH_ANGLE_RATE, Dynamic_Vehicle_MASS, 0);
             (Dynamic_Mission_FLIGHT_PATH_ANGLE_RATE, Dynamic_Mission_FLIGHT_PATH_ANGLE, 0);
             (Dynamic_Mission_FLIGHT_PATH_ANGLE_RATE, Dynamic_Mission_VELOCITY, 0);
             (Dynamic_Mission_FLIGHT_PATH_ANGLE_RATE, Aircraft_Wing_INCIDENCE, 0);
             (Dynamic_Mission_FLIGHT_PATH_ANGLE_RATE, Dynamic_Vehicle_ANGLE_OF_ATTACK, 0);
             (v_normal_force, Dynamic_Vehicle_ANGLE_OF_ATTACK, 0);
             (v_fuselage_pitch, Dynamic_Vehicle_ANGLE_OF_ATTACK, 0);
             (v_load_factor, Dynamic_Vehicle_ANGLE_OF_ATTACK, 0);
             (Dynamic_Mission_VELOCITY_RATE, Dynamic_Vehicle_ANGLE_OF_ATTACK, 0);
             (Dynamic_Mission_DISTANCE_RATE, Dynamic_Mission_VELOCITY, 0);
             (Dynamic_Mission_DISTANCE_RATE, Dynamic_Mission_FLIGHT_PATH_ANGLE, 0);
             (v_normal_force, Dynamic_Vehicle_MASS, 0);
             (v_normal_force, Dynamic_Vehicle_LIFT, 0);
             (v_normal_force, Dynamic_Vehicle_Propulsion_THRUST_TOTAL, 0);
             (v_normal_force, Aircraft_Wing_INCIDENCE, 0);
             (v_fuselage_pitch, Dynamic_Mission_FLIGHT_PATH_ANGLE, 1 / (PI / 180));
             (v_fuselage_pitch, Aircraft_Wing_INCIDENCE, 0);
             (v_angle_of_attack_rate, Dynamic_Vehicle_MASS, 0);
             (v_angle_of_attack_rate, Dynamic_Vehicle_Propulsion_THRUST_TOTAL, 0);
             (v_angle_of_attack_rate, Dynamic_Vehicle_LIFT, 0);
             (v_angle_of_attack_rate, Dynamic_Vehicle_DRAG, 0);
             (v_angle_of_attack_rate, Dynamic_Mission_VELOCITY, 0);
             (v_angle_of_attack_rate, Dynamic_Mission_FLIGHT_PATH_ANGLE, 0);
             (v_angle_of_attack_rate, Aircraft_Wing_INCIDENCE, 0);
             (v_angle_of_attack_rate, Mission_Takeoff_ROLLING_FRICTION_COEFFICIENT, 0);
             (v_angle_of_attack_rate, Dynamic_Vehicle_ANGLE_OF_ATTACK, 0)];
  c_run := TakeoffEOM_flight_compute op; c_jac := TakeoffEOM_flight_partials op |}.

(** The inputs that are scalars, shared by all nodes. *)
Definition TakeoffEOM_flight_shared : list string := [Aircraft_Wing_INCIDENCE;
    Mission_Takeoff_ROLLING_FRICTION_COEFFICIENT].

(** TakeoffEOM.compute, /repo/aviary/mission/two_dof/ode/takeoff_eom.py L217-278 with ground_roll = True *)
Definition TakeoffEOM_ground_compute (op : options) (e : env) : list (string * R) :=
  let grav_english := on op Mission_GRAVITY in  (* L218 *)
  let rotation := ob op v_rotation in  (* L220 *)
  let weight := e Dynamic_Vehicle_MASS * GRAV_ENGLISH_LBM in  (* L222 *)
  let thrust := e Dynamic_Vehicle_Propulsion_THRUST_TOTAL in  (* L223 *)
  let incremented_lift := e Dynamic_Vehicle_LIFT in  (* L224 *)
  let incremented_drag := e Dynamic_Vehicle_DRAG in  (* L225 *)
  let TAS := e Dynamic_Mission_VELOCITY in  (* L226 *)
  let gamma := e Dynamic_Mission_FLIGHT_PATH_ANGLE in  (* L227 *)
  let i_wing := e Aircraft_Wing_INCIDENCE in  (* L228 *)
  let alpha := e Aircraft_Wing_INCIDENCE in  (* L231 *)
  let thrust_along_flightpath := thrust * cos ((alpha - i_wing) * (PI / 180)) in  (* L235 *)
  let thrust_across_flightpath := thrust * sin ((alpha - i_wing) * (PI / 180)) in  (* L236 *)
  let mu := e Mission_Takeoff_ROLLING_FRICTION_COEFFICIENT in  (* L239 *)
  let normal_force := weight - incremented_lift - thrust_across_flightpath in  (* L240 *)
  let normal_force := if ltb normal_force 0 then 0 else normal_force in  (* L241 *)
  let o_normal_force := normal_force in  (* L242 *)
  let cos_gamma := cos gamma in  (* L249 *)
  let sin_gamma := sin gamma in  (* L250 *)
  let o_Mission_VELOCITY_RATE := (thrust_along_flightpath - incremented_drag - weight * sin_gamma - mu * normal_force)
      * grav_english / weight in  (* L252 *)
  let o_Mission_FLIGHT_PATH_ANGLE_RATE := 0 in  (* L259 *)
  let o_Mission_ALTITUDE_RATE := TAS * sin_gamma in  (* L267 *)
  let o_Mission_DISTANCE_RATE := TAS * cos_gamma in  (* L268 *)
  let o_fuselage_pitch := gamma * (1 / (PI / 180)) - i_wing + alpha in  (* L270 *)
  let load_factor := (incremented_lift + thrust_across_flightpath) / (weight * cos_gamma) in  (* L272 *)
  let o_load_factor := load_factor in  (* L273 *)
  let o_angle_of_attack_rate :=  (* L275 *)
    if rotation then
      let o_angle_of_attack_rate := on op v_rotation_pitch_rate in  (* L276 *)
      o_angle_of_attack_rate
    else
      let o_angle_of_attack_rate := 0 in  (* L278 *)
      o_angle_of_attack_rate in
  [(v_normal_force, o_normal_force);
   (Dynamic_Mission_VELOCITY_RATE, o_Mission_VELOCITY_RATE);
   (Dynamic_Mission_FLIGHT_PATH_ANGLE_RATE, o_Mission_FLIGHT_PATH_ANGLE_RATE);
   (Dynamic_Mission_ALTITUDE_RATE, o_Mission_ALTITUDE_RATE);
   (Dynamic_Mission_DISTANCE_RATE, o_Mission_DISTANCE_RATE);
   (v_fuselage_pitch, o_fuselage_pitch);
   (v_load_factor, o_load_factor);
   (v_angle_of_attack_rate, o_angle_of_attack_rate)].

(** TakeoffEOM.compute_partials, /repo/aviary/mission/two_dof/ode/takeoff_eom.py L280-445 *)
Definition TakeoffEOM_ground_partials (op : options) (e : env) : list (string * string * R) :=
  let grav_english := on op Mission_GRAVITY in  (* L281 *)
  let rotation := ob op v_rotation in  (* L283 *)
  let nn := on op v_num_nodes in  (* L284 *)
  let mu := e Mission_Takeoff_ROLLING_FRICTION_COEFFICIENT in  (* L287 *)
  let weight := e Dynamic_Vehicle_MASS * GRAV_ENGLISH_LBM in  (* L291 *)
  let thrust := e Dynamic_Vehicle_Propulsion_THRUST_TOTAL in  (* L292 *)
  let incremented_lift := e Dynamic_Vehicle_LIFT in  (* L293 *)
  let incremented_drag := e Dynamic_Vehicle_DRAG in  (* L294 *)
  let TAS := e Dynamic_Mission_VELOCITY in  (* L295 *)
  let gamma := e Dynamic_Mission_FLIGHT_PATH_ANGLE in  (* L296 *)
  let i_wing := e Aircraft_Wing_INCIDENCE in  (* L297 *)
  let alpha := i_wing in  (* L300 *)
  let cos_alpha := cos ((alpha - i_wing) * (PI / 180)) in  (* L304 *)
  let sin_alpha := sin ((alpha - i_wing) * (PI / 180)) in  (* L305 *)
  let cos_gamma := cos gamma in  (* L306 *)
  let sin_gamma := sin gamma in  (* L307 *)
  let thrust_along_flightpath := thrust * cos_alpha in  (* L309 *)
  let thrust_across_flightpath := thrust * sin_alpha in  (* L310 *)
  let dTAlF_dThrust := cos_alpha in  (* L312 *)
  let dTAlF_dAlpha := - thrust * sin_alpha * (PI / 180) in  (* L313 *)
  let dTAlF_dIwing := thrust * sin_alpha * (PI / 180) in  (* L314 *)
  let dTAcF_dThrust := sin_alpha in  (* L316 *)
  let dTAcF_dAlpha := thrust * cos_alpha * (PI / 180) in  (* L317 *)
  let dTAcF_dIwing := - thrust * cos_alpha * (PI / 180) in  (* L318 *)
  let d_load_factor__Vehicle_LIFT := 1 / (weight * cos_gamma) in  (* L320 *)
  let d_load_factor__Vehicle_MASS := - (incremented_lift + thrust_across_flightpath) / (weight ^ 2 * cos_gamma) *
      GRAV_ENGLISH_LBM in  (* L321 *)
  let d_load_factor__Mission_FLIGHT_PATH_ANGLE := - (incremented_lift + thrust_across_flightpath) / (weight *
      cos_gamma ^ 2) * - sin_gamma in  (* L326 *)
  let d_load_factor__Vehicle_Propulsion_THRUST_TOTAL := dTAcF_dThrust / (weight * cos_gamma) in  (* L331 *)
  let normal_force := weight - incremented_lift - thrust_across_flightpath in  (* L336 *)
  let idx := ltb normal_force 0 in  (* L340 *)
  let normal_force := if idx then 0 else normal_force in  (* L341 *)
  let dNF_dWeight := 1 in  (* L343 *)
  let dNF_dWeight := if idx then 0 else dNF_dWeight in  (* L344 *)
  let dNF_dLift := - 1 in  (* L346 *)
  let dNF_dLift := if idx then 0 else dNF_dLift in  (* L347 *)
  let dNF_dThrust := - 1 * dTAcF_dThrust in  (* L349 *)
  let dNF_dThrust := if idx then 0 else dNF_dThrust in  (* L350 *)
  let dNF_dIwing := - 1 * dTAcF_dIwing in  (* L352 *)
  let dNF_dIwing := if idx then 0 else dNF_dIwing in  (* L353 *)
  let d_Mission_VELOCITY_RATE__Vehicle_Propulsion_THRUST_TOTAL := (dTAlF_dThrust - mu * dNF_dThrust) * grav_english /
      weight in  (* L355 *)
  let d_Mission_VELOCITY_RATE__Vehicle_DRAG := - grav_english / weight in  (* L359 *)
  let d_Mission_VELOCITY_RATE__Vehicle_MASS := grav_english * GRAV_ENGLISH_LBM * (weight * (- sin_gamma - mu *
      dNF_dWeight) - (thrust_along_flightpath - incremented_drag - weight * sin_gamma - mu * normal_force)) / weight ^
      2 in  (* L360 *)
  let d_Mission_VELOCITY_RATE__Mission_FLIGHT_PATH_ANGLE := - cos_gamma * grav_english in  (* L374 *)
  let d_Mission_VELOCITY_RATE__Vehicle_LIFT := grav_english * (- mu * dNF_dLift) / weight in  (* L377 *)
  let d_Mission_VELOCITY_RATE__Takeoff_ROLLING_FRICTION_COEFFICIENT := - normal_force * grav_english / weight in  (* L380 *)
  let d_Mission_ALTITUDE_RATE__Mission_VELOCITY := sin_gamma in  (* L384 *)
  let d_Mission_ALTITUDE_RATE__Mission_FLIGHT_PATH_ANGLE := TAS * cos_gamma in  (* L385 *)
  let d_Mission_DISTANCE_RATE__Mission_VELOCITY := cos_gamma in  (* L439 *)
  let d_Mission_DISTANCE_RATE__Mission_FLIGHT_PATH_ANGLE := - TAS * sin_gamma in  (* L440 *)
  let d_normal_force__Vehicle_MASS := dNF_dWeight * GRAV_ENGLISH_LBM in  (* L443 *)
  let d_normal_force__Vehicle_LIFT := dNF_dLift in  (* L444 *)
  let d_normal_force__Vehicle_Propulsion_THRUST_TOTAL := dNF_dThrust in  (* L445 *)
  [(v_load_factor, Dynamic_Vehicle_LIFT, d_load_factor__Vehicle_LIFT);
   (v_load_factor, Dynamic_Vehicle_MASS, d_load_factor__Vehicle_MASS);
   (v_load_factor, Dynamic_Mission_FLIGHT_PATH_ANGLE, d_load_factor__Mission_FLIGHT_PATH_ANGLE);
   (v_load_factor, Dynamic_Vehicle_Propulsion_THRUST_TOTAL, d_load_factor__Vehicle_Propulsion_THRUST_TOTAL);
   (Dynamic_Mission_VELOCITY_RATE, Dynamic_Vehicle_Propulsion_THRUST_TOTAL,
       d_Mission_VELOCITY_RATE__Vehicle_Propulsion_THRUST_TOTAL);
   (Dynamic_Mission_VELOCITY_RATE, Dynamic_Vehicle_DRAG, d_Mission_VELOCITY_RATE__Vehicle_DRAG);
   (Dynamic_Mission_VELOCITY_RATE, Dynamic_Vehicle_MASS, d_Mission_VELOCITY_RATE__Vehicle_MASS);
   (Dynamic_Mission_VELOCITY_RATE, Dynamic_Mission_FLIGHT_PATH_ANGLE,
       d_Mission_VELOCITY_RATE__Mission_FLIGHT_PATH_ANGLE);
   (Dynamic_Mission_VELOCITY_RATE, Dynamic_Vehicle_LIFT, d_Mission_VELOCITY_RATE__Vehicle_LIFT);
   (Dynamic_Mission_VELOCITY_RATE, Mission_Takeoff_ROLLING_FRICTION_COEFFICIENT,
       d_Mission_VELOCITY_RATE__Takeoff_ROLLING_FRICTION_COEFFICIENT);
   (Dynamic_Mission_ALTITUDE_RATE, Dynamic_Mission_VELOCITY, d_Mission_ALTITUDE_RATE__Mission_VELOCITY);
   (Dynamic_Mission_ALTITUDE_RATE, Dynamic_Mission_FLIGHT_PATH_ANGLE,
       d_Mission_ALTITUDE_RATE__Mission_FLIGHT_PATH_ANGLE);
   (Dynamic_Mission_DISTANCE_RATE, Dynamic_Mission_VELOCITY, d_Mission_DISTANCE_RATE__Mission_VELOCITY);
   (Dynamic_Mission_DISTANCE_RATE, Dynamic_Mission_FLIGHT_PATH_ANGLE,
       d_Mission_DISTANCE_RATE__Mission_FLIGHT_PATH_ANGLE);
   (v_normal_force, Dynamic_Vehicle_MASS, d_normal_force__Vehicle_MASS);
   (v_normal_force, Dynamic_Vehicle_LIFT, d_normal_force__Vehicle_LIFT);
   (v_normal_force, Dynamic_Vehicle_Propulsion_THRUST_TOTAL, d_normal_force__Vehicle_Propulsion_THRUST_TOTAL)].

(** Inputs, outputs and declared partials: /repo/aviary/mission/two_dof/ode/takeoff_eom.py L55-215 *)
Definition TakeoffEOM_ground (op : options) : comp := {|
  c_ins := [Dynamic_Vehicle_MASS;
            Dynamic_Vehicle_Propulsion_THRUST_TOTAL;
            Dynamic_Vehicle_LIFT;
            Dynamic_Vehicle_DRAG;
            Dynamic_Mission_VELOCITY;
            Dynamic_Mission_FLIGHT_PATH_ANGLE;
            Aircraft_Wing_INCIDENCE;
            Mission_Takeoff_ROLLING_FRICTION_COEFFICIENT];
  c_outs := [Dynamic_Mission_VELOCITY_RATE;
             Dynamic_Mission_ALTITUDE_RATE;
             Dynamic_Mission_FLIGHT_PATH_ANGLE_RATE;
             Dynamic_Mission_DISTANCE_RATE;
             v_normal_force;
             v_fuselage_pitch;
             v_load_factor;
             v_angle_of_attack_rate];
  c_decl := [(v_load_factor, Dynamic_Vehicle_LIFT, 0);
             (v_load_factor, Dynamic_Vehicle_MASS, 0);
             (v_load_factor, Dynamic_Mission_FLIGHT_PATH_ANGLE, 0);
             (v_load_factor, Dynamic_Vehicle_Propulsion_THRUST_TOTAL, 0);
             (v_load_factor, Aircraft_Wing_INCIDENCE, 0);
             (Dynamic_Mission_VELOCITY_RATE, Dynamic_Vehicle_Propulsion_THRUST_TOTAL, 0);
             (Dynamic_Mission_VELOCITY_RATE, Dynamic_Vehicle_DRAG, 0);
             (Dynamic_Mission_VELOCITY_RATE, Dynamic_Vehicle_MASS, 0);
             (Dynamic_Mission_VELOCITY_RATE, Dynamic_Mission_FLIGHT_PATH_ANGLE, 0);
             (Dynamic_Mission_VELOCITY_RATE, Dynamic_Vehicle_LIFT, 0);
             (Dynamic_Mission_VELOCITY_RATE, Aircraft_Wing_INCIDENCE, 0);
             (Dynamic_Mission_VELOCITY_RATE, Mission_Takeoff_ROLLING_FRICTION_COEFFICIENT, 0);
             (Dynamic_Mission_ALTITUDE_RATE, Dynamic_Mission_VELOCITY, 0);
             (Dynamic_Mission_ALTITUDE_RATE, Dynamic_Mission_FLIGHT_PATH_ANGLE, 0);
             (Dynamic_Mission_FLIGHT_PATH_ANGLE_RATE, Dynamic_Vehicle_Propulsion_THRUST_TOTAL, 0);
             (Dynamic_Mission_FLIGHT_PATH_ANGLE_RATE, Dynamic_Vehicle_LIFT, 0);
             (Dynamic_Mission_FLIGHT_PATH_ANGLE_RATE, Dynamic_Vehicle_MASS, 0);
             (Dynamic_Mission_FLIGHT_PATH_ANGLE_RATE, Dynamic_Mission_FLIGHT_PATH_ANGLE, 0);
             (Dynamic_Mission_FLIGHT_PATH_ANGLE_RATE, Dynamic_Mission_VELOCITY, 0);
             (Dynamic_Mission_FLIGHT_PATH_ANGLE_RATE, Aircraft_Wing_INCIDENCE, 0);
             (Dynamic_Mission_DISTANCE_RATE, Dynamic_Mission_VELOCITY, 0);
             (Dynamic_Mission_DISTANCE_RATE, Dynamic_Mission_FLIGHT_PATH_ANGLE, 0);
             (v_normal_force, Dynamic_Vehicle_MASS, 0);
             (v_normal_force, Dynamic_Vehicle_LIFT, 0);
             (v_normal_force, Dynamic_Vehicle_Propulsion_THRUST_TOTAL, 0);
             (v_normal_force, Aircraft_Wing_INCIDENCE, 0);
             (v_fuselage_pitch, Dynamic_Mission_FLIGHT_PATH_ANGLE, 1 / (PI / 180));
             (v_fuselage_pitch, Aircraft_Wing_INCIDENCE, 0);
             (v_angle_of_attack_rate, Dynamic_Vehicle_MASS, 0);
             (v_angle_of_attack_rate, Dynamic_Vehicle_Propulsion_THRUST_TOTAL, 0);
             (v_angle_of_attack_rate, Dynamic_Vehicle_LIFT, 0);
             (v_angle_of_attack_rate, Dynamic_Vehicle_DRAG, 0);
             (v_angle_of_attack_rate, Dynamic_Mission_VELOCITY, 0);
             (v_angle_of_attack_rate, Dynamic_Mission_FLIGHT_PATH_ANGLE, 0);
             (v_angle_of_attack_rate, Aircraft_Wing_INCIDENCE, 0);
             (v_angle_of_attack_rate, Mission_Takeoff_ROLLING_FRICTION_COEFFICIENT, 0)];
  c_run := TakeoffEOM_ground_compute op; c_jac := TakeoffEOM_ground_partials op |}.

(** The inputs that are scalars, shared by all nodes. *)
Definition TakeoffEOM_ground_shared : list string := [Aircraft_Wing_INCIDENCE;
    Mission_Takeoff_ROLLING_FRICTION_COEFFICIENT].

(** AccelerationRates.compute, /repo/aviary/mission/two_dof/ode/accel_eom.py L83-92 *)
Definition AccelerationRates_compute (op : options) (e : env) : list (string * R) :=
  let grav_english := on op Mission_GRAVITY in  (* L84 *)
  let weight := e Dynamic_Vehicle_MASS * GRAV_ENGLISH_LBM in  (* L86 *)
  let drag := e Dynamic_Vehicle_DRAG in  (* L87 *)
  let thrust := e Dynamic_Vehicle_Propulsion_THRUST_TOTAL in  (* L88 *)
  let TAS := e Dynamic_Mission_VELOCITY in  (* L89 *)
  let o_Mission_VELOCITY_RATE := grav_english / weight * (thrust - drag) in  (* L91 *)
  let o_Mission_DISTANCE_RATE := TAS in  (* L92 *)
  [(Dynamic_Mission_VELOCITY_RATE, o_Mission_VELOCITY_RATE);
   (Dynamic_Mission_DISTANCE_RATE, o_Mission_DISTANCE_RATE)].

(** AccelerationRates.compute_partials, /repo/aviary/mission/two_dof/ode/accel_eom.py L94-106 *)
Definition AccelerationRates_partials (op : options) (e : env) : list (string * string * R) :=
  let grav_english := on op Mission_GRAVITY in  (* L95 *)
  let weight := e Dynamic_Vehicle_MASS * GRAV_ENGLISH_LBM in  (* L96 *)
  let drag := e Dynamic_Vehicle_DRAG in  (* L97 *)
  let thrust := e Dynamic_Vehicle_Propulsion_THRUST_TOTAL in  (* L98 *)
  let d_Mission_VELOCITY_RATE__Vehicle_MASS := - (grav_english / weight ^ 2) * (thrust - drag) * GRAV_ENGLISH_LBM in  (* L100 *)
  let d_Mission_VELOCITY_RATE__Vehicle_DRAG := - (grav_english / weight) in  (* L103 *)
  let d_Mission_VELOCITY_RATE__Vehicle_Propulsion_THRUST_TOTAL := grav_english / weight in  (* L104 *)
  [(Dynamic_Mission_VELOCITY_RATE, Dynamic_Vehicle_MASS, d_Mission_VELOCITY_RATE__Vehicle_MASS);
   (Dynamic_Mission_VELOCITY_RATE, Dynamic_Vehicle_DRAG, d_Mission_VELOCITY_RATE__Vehicle_DRAG);
   (Dynamic_Mission_VELOCITY_RATE, Dynamic_Vehicle_Propulsion_THRUST_TOTAL,
       d_Mission_VELOCITY_RATE__Vehicle_Propulsion_THRUST_TOTAL)].

(** Inputs, outputs and declared partials: /repo/aviary/mission/two_dof/ode/accel_eom.py L21-81 *)
Definition AccelerationRates (op : options) : comp := {|
  c_ins := [Dynamic_Vehicle_MASS;
            Dynamic_Vehicle_DRAG;
            Dynamic_Vehicle_Propulsion_THRUST_TOTAL;
            Dynamic_Mission_VELOCITY];
  c_outs := [Dynamic_Mission_VELOCITY_RATE;
             Dynamic_Mission_DISTANCE_RATE];
  c_decl := [(Dynamic_Mission_VELOCITY_RATE, Dynamic_Vehicle_MASS, 0);
             (Dynamic_Mission_VELOCITY_RATE, Dynamic_Vehicle_DRAG, 0);
             (Dynamic_Mission_VELOCITY_RATE, Dynamic_Vehicle_Propulsion_THRUST_TOTAL, 0);
             (Dynamic_Mission_DISTANCE_RATE, Dynamic_Mission_VELOCITY, 1)];
  c_run := AccelerationRates_compute op; c_jac := AccelerationRates_partials op |}.

(** The inputs that are scalars, shared by all nodes. *)
Definition AccelerationRates_shared : list string := [].

(** EOMRates.compute, /repo/aviary/mission/two_dof/ode/flight_eom.py L113-125 *)
Definition EOMRates_compute (op : options) (e : env) : list (string * R) :=
  let TAS := e Dynamic_Mission_VELOCITY in  (* L114 *)
  let thrust := e Dynamic_Vehicle_Propulsion_THRUST_TOTAL in  (* L115 *)
  let drag := e Dynamic_Vehicle_DRAG in  (* L116 *)
  let weight := e Dynamic_Vehicle_MASS * GRAV_ENGLISH_LBM in  (* L117 *)
  let alpha := e Dynamic_Vehicle_ANGLE_OF_ATTACK in  (* L118 *)
  let gamma := asin ((thrust - drag) / weight) in  (* L120 *)
  let o_Mission_ALTITUDE_RATE := TAS * sin gamma in  (* L122 *)
  let o_Mission_DISTANCE_RATE := TAS * cos gamma in  (* L123 *)
  let o_required_lift := weight * cos gamma - thrust * sin alpha in  (* L124 *)
  let o_Mission_FLIGHT_PATH_ANGLE := gamma in  (* L125 *)
  [(Dynamic_Mission_ALTITUDE_RATE, o_Mission_ALTITUDE_RATE);
   (Dynamic_Mission_DISTANCE_RATE, o_Mission_DISTANCE_RATE);
   (v_required_lift, o_required_lift);
   (Dynamic_Mission_FLIGHT_PATH_ANGLE, o_Mission_FLIGHT_PATH_ANGLE)].

(** EOMRates.compute_partials, /repo/aviary/mission/two_dof/ode/flight_eom.py L127-174 *)
Definition EOMRates_partials (op : options) (e : env) : list (string * string * R) :=
  let TAS := e Dynamic_Mission_VELOCITY in  (* L128 *)
  let thrust := e Dynamic_Vehicle_Propulsion_THRUST_TOTAL in  (* L129 *)
  let drag := e Dynamic_Vehicle_DRAG in  (* L130 *)
  let weight := e Dynamic_Vehicle_MASS * GRAV_ENGLISH_LBM in  (* L131 *)
  let alpha := e Dynamic_Vehicle_ANGLE_OF_ATTACK in  (* L132 *)
  let gamma := asin ((thrust - drag) / weight) in  (* L134 *)
  let fact := (1 - ((thrust - drag) / weight) ^ 2) ** (- 5 / 10) in  (* L136 *)
  let dGamma_dThrust := fact / weight in  (* L137 *)
  let dGamma_dDrag := - fact / weight in  (* L138 *)
  let dGamma_dWeight := fact * (drag - thrust) / weight ^ 2 in  (* L139 *)
  let d_Mission_ALTITUDE_RATE__Mission_VELOCITY := sin gamma in  (* L141 *)
  let d_Mission_ALTITUDE_RATE__Vehicle_Propulsion_THRUST_TOTAL := TAS * cos gamma * dGamma_dThrust in  (* L142 *)
  let d_Mission_ALTITUDE_RATE__Vehicle_DRAG := TAS * cos gamma * dGamma_dDrag in  (* L145 *)
  let d_Mission_ALTITUDE_RATE__Vehicle_MASS := TAS * cos gamma * dGamma_dWeight * GRAV_ENGLISH_LBM in  (* L146 *)
  let d_Mission_DISTANCE_RATE__Mission_VELOCITY := cos gamma in  (* L150 *)
  let d_Mission_DISTANCE_RATE__Vehicle_Propulsion_THRUST_TOTAL := - TAS * sin gamma * dGamma_dThrust in  (* L151 *)
  let d_Mission_DISTANCE_RATE__Vehicle_DRAG := - TAS * sin gamma * dGamma_dDrag in  (* L154 *)
  let d_Mission_DISTANCE_RATE__Vehicle_MASS := - TAS * sin gamma * dGamma_dWeight * GRAV_ENGLISH_LBM in  (* L155 *)
  let d_required_lift__Vehicle_MASS := (cos gamma - weight * sin gamma * dGamma_dWeight) * GRAV_ENGLISH_LBM in  (* L159 *)
  let d_required_lift__Vehicle_Propulsion_THRUST_TOTAL := - weight * sin gamma * dGamma_dThrust - sin alpha in  (* L162 *)
  let d_required_lift__Vehicle_DRAG := - weight * sin gamma * dGamma_dDrag in  (* L165 *)
  let d_required_lift__Vehicle_ANGLE_OF_ATTACK := - thrust * cos alpha in  (* L166 *)
  let d_Mission_FLIGHT_PATH_ANGLE__Vehicle_Propulsion_THRUST_TOTAL := dGamma_dThrust in  (* L168 *)
  let d_Mission_FLIGHT_PATH_ANGLE__Vehicle_DRAG := dGamma_dDrag in  (* L171 *)
  let d_Mission_FLIGHT_PATH_ANGLE__Vehicle_MASS := dGamma_dWeight * GRAV_ENGLISH_LBM in  (* L172 *)
  [(Dynamic_Mission_ALTITUDE_RATE, Dynamic_Mission_VELOCITY, d_Mission_ALTITUDE_RATE__Mission_VELOCITY);
   (Dynamic_Mission_ALTITUDE_RATE, Dynamic_Vehicle_Propulsion_THRUST_TOTAL,
       d_Mission_ALTITUDE_RATE__Vehicle_Propulsion_THRUST_TOTAL);
   (Dynamic_Mission_ALTITUDE_RATE, Dynamic_Vehicle_DRAG, d_Mission_ALTITUDE_RATE__Vehicle_DRAG);
   (Dynamic_Mission_ALTITUDE_RATE, Dynamic_Vehicle_MASS, d_Mission_ALTITUDE_RATE__Vehicle_MASS);
   (Dynamic_Mission_DISTANCE_RATE, Dynamic_Mission_VELOCITY, d_Mission_DISTANCE_RATE__Mission_VELOCITY);
   (Dynamic_Mission_DISTANCE_RATE, Dynamic_Vehicle_Propulsion_THRUST_TOTAL,
       d_Mission_DISTANCE_RATE__Vehicle_Propulsion_THRUST_TOTAL);
   (Dynamic_Mission_DISTANCE_RATE, Dynamic_Vehicle_DRAG, d_Mission_DISTANCE_RATE__Vehicle_DRAG);
   (Dynamic_Mission_DISTANCE_RATE, Dynamic_Vehicle_MASS, d_Mission_DISTANCE_RATE__Vehicle_MASS);
   (v_required_lift, Dynamic_Vehicle_MASS, d_required_lift__Vehicle_MASS);
   (v_required_lift, Dynamic_Vehicle_Propulsion_THRUST_TOTAL, d_required_lift__Vehicle_Propulsion_THRUST_TOTAL);
   (v_required_lift, Dynamic_Vehicle_DRAG, d_required_lift__Vehicle_DRAG);
   (v_required_lift, Dynamic_Vehicle_ANGLE_OF_ATTACK, d_required_lift__Vehicle_ANGLE_OF_ATTACK);
   (Dynamic_Mission_FLIGHT_PATH_ANGLE, Dynamic_Vehicle_Propulsion_THRUST_TOTAL,
       d_Mission_FLIGHT_PATH_ANGLE__Vehicle_Propulsion_THRUST_TOTAL);
   (Dynamic_Mission_FLIGHT_PATH_ANGLE, Dynamic_Vehicle_DRAG, d_Mission_FLIGHT_PATH_ANGLE__Vehicle_DRAG);
   (Dynamic_Mission_FLIGHT_PATH_ANGLE, Dynamic_Vehicle_MASS, d_Mission_FLIGHT_PATH_ANGLE__Vehicle_MASS)].

(** Inputs, outputs and declared partials: /repo/aviary/mission/two_dof/ode/flight_eom.py L15-111 *)
Definition EOMRates (op : options) : comp := {|
  c_ins := [Dynamic_Mission_VELOCITY;
            Dynamic_Vehicle_Propulsion_THRUST_TOTAL;
            Dynamic_Vehicle_DRAG;
            Dynamic_Vehicle_MASS;
            Dynamic_Vehicle_ANGLE_OF_ATTACK];
  c_outs := [Dynamic_Mission_ALTITUDE_RATE;
             Dynamic_Mission_DISTANCE_RATE;
             v_required_lift;
             Dynamic_Mission_FLIGHT_PATH_ANGLE];
  c_decl := [(Dynamic_Mission_ALTITUDE_RATE, Dynamic_Mission_VELOCITY, 0);
             (Dynamic_Mission_ALTITUDE_RATE, Dynamic_Vehicle_Propulsion_THRUST_TOTAL, 0);
             (Dynamic_Mission_ALTITUDE_RATE, Dynamic_Vehicle_DRAG, 0);
             (Dynamic_Mission_ALTITUDE_RATE, Dynamic_Vehicle_MASS, 0);
             (Dynamic_Mission_DISTANCE_RATE, Dynamic_Mission_VELOCITY, 0);
             (Dynamic_Mission_DISTANCE_RATE, Dynamic_Vehicle_Propulsion_THRUST_TOTAL, 0);
             (Dynamic_Mission_DISTANCE_RATE, Dynamic_Vehicle_DRAG, 0);
             (Dynamic_Mission_DISTANCE_RATE, Dynamic_Vehicle_MASS, 0);
             (v_required_lift, Dynamic_Vehicle_MASS, 0);
             (v_required_lift, Dynamic_Vehicle_Propulsion_THRUST_TOTAL, 0);
             (v_required_lift, Dynamic_Vehicle_DRAG, 0);
             (v_required_lift, Dynamic_Vehicle_ANGLE_OF_ATTACK, 0);
             (Dynamic_Mission_FLIGHT_PATH_ANGLE, Dynamic_Vehicle_Propulsion_THRUST_TOTAL, 0);
             (Dynamic_Mission_FLIGHT_PATH_ANGLE, Dynamic_Vehicle_DRAG, 0);
             (Dynamic_Mission_FLIGHT_PATH_ANGLE, Dynamic_Vehicle_MASS, 0)];
  c_run := EOMRates_compute op; c_jac := EOMRates_partials op |}.

(** The inputs that are scalars, shared by all nodes. *)
Definition EOMRates_shared : list string := [].

(** TaxiFuelComponent.compute, /repo/aviary/mission/two_dof/ode/taxi_eom.py L45-49 *)
Definition TaxiFuelComponent_compute (op : options) (e : env) : list (string * R) :=
  let fuelflow := e Dynamic_Vehicle_Propulsion_FUEL_MASS_FLOW_RATE_NEGATIVE_TOTAL in  (* L46 *)
  let takeoff_mass := e Mission_GROSS_MASS in  (* L46 *)
  let dt_taxi := on op Mission_Taxi_DURATION in  (* L47 *)
  let o_taxi_fuel_consumed := - fuelflow * dt_taxi in  (* L48 *)
  let o_Vehicle_MASS := takeoff_mass - o_taxi_fuel_consumed in  (* L49 *)
  [(v_taxi_fuel_consumed, o_taxi_fuel_consumed);
   (Dynamic_Vehicle_MASS, o_Vehicle_MASS)].

(** TaxiFuelComponent.compute_partials, /repo/aviary/mission/two_dof/ode/taxi_eom.py L51-62 *)
Definition TaxiFuelComponent_partials (op : options) (e : env) : list (string * string * R) :=
  let dt_taxi := on op Mission_Taxi_DURATION in  (* L52 *)
  let d_taxi_fuel_consumed__Vehicle_Propulsion_FUEL_MASS_FLOW_RATE_NEGATIVE_TOTAL := - dt_taxi in  (* L54 *)
  let d_Vehicle_MASS__Vehicle_Propulsion_FUEL_MASS_FLOW_RATE_NEGATIVE_TOTAL := dt_taxi in  (* L59 *)
  [(v_taxi_fuel_consumed, Dynamic_Vehicle_Propulsion_FUEL_MASS_FLOW_RATE_NEGATIVE_TOTAL,
      d_taxi_fuel_consumed__Vehicle_Propulsion_FUEL_MASS_FLOW_RATE_NEGATIVE_TOTAL);
   (Dynamic_Vehicle_MASS, Dynamic_Vehicle_Propulsion_FUEL_MASS_FLOW_RATE_NEGATIVE_TOTAL,
       d_Vehicle_MASS__Vehicle_Propulsion_FUEL_MASS_FLOW_RATE_NEGATIVE_TOTAL)].

(** Inputs, outputs and declared partials: /repo/aviary/mission/two_dof/ode/taxi_eom.py L13-43 *)
Definition TaxiFuelComponent (op : options) : comp := {|
  c_ins := [Dynamic_Vehicle_Propulsion_FUEL_MASS_FLOW_RATE_NEGATIVE_TOTAL;
            Mission_GROSS_MASS];
  c_outs := [v_taxi_fuel_consumed;
             Dynamic_Vehicle_MASS];
  c_decl := [(v_taxi_fuel_consumed, Dynamic_Vehicle_Propulsion_FUEL_MASS_FLOW_RATE_NEGATIVE_TOTAL, 0);
             (Dynamic_Vehicle_MASS, Dynamic_Vehicle_Propulsion_FUEL_MASS_FLOW_RATE_NEGATIVE_TOTAL, 0);
             (Dynamic_Vehicle_MASS, Mission_GROSS_MASS, 1)];
  c_run := TaxiFuelComponent_compute op; c_jac := TaxiFuelComponent_partials op |}.

(** VRotateComp.compute, /repo/aviary/mission/two_dof/ode/v_rotate_comp.py L53-63 *)
Definition VRotateComp_compute (op : options) (e : env) : list (string * R) :=
  let rho := e Dynamic_Atmosphere_DENSITY in  (* L54 *)
  let wing_area := e Aircraft_Wing_AREA in  (* L55 *)
  let mass := e Dynamic_Vehicle_MASS in  (* L56 *)
  let CL_max := e v_CL_max in  (* L57 *)
  let dV1 := e v_dV1 in  (* L58 *)
  let dVR := e v_dVR in  (* L59 *)
  let o_Vrot := (2 * mass * GRAV_ENGLISH_LBM / (rho * wing_area * CL_max)) ** (5 / 10) + dV1 + dVR in  (* L61 *)
  [(v_Vrot, o_Vrot)].

(** VRotateComp.compute_partials, /repo/aviary/mission/two_dof/ode/v_rotate_comp.py L65-78 *)
Definition VRotateComp_partials (op : options) (e : env) : list (string * string * R) :=
  let rho := e Dynamic_Atmosphere_DENSITY in  (* L66 *)
  let wing_area := e Aircraft_Wing_AREA in  (* L67 *)
  let mass := e Dynamic_Vehicle_MASS in  (* L68 *)
  let CL_max := e v_CL_max in  (* L69 *)
  let dV1 := e v_dV1 in  (* L70 *)
  let dVR := e v_dVR in  (* L71 *)
  let K := 5 / 10 * (2 * mass * GRAV_ENGLISH_LBM / (rho * wing_area * CL_max)) ** (5 / 10) in  (* L73 *)
  let d_Vrot__Vehicle_MASS := K / mass in  (* L75 *)
  let d_Vrot__Atmosphere_DENSITY := - K / rho in  (* L76 *)
  let d_Vrot__Wing_AREA := - K / wing_area in  (* L77 *)
  let d_Vrot__CL_max := - K / CL_max in  (* L78 *)
  [(v_Vrot, Dynamic_Vehicle_MASS, d_Vrot__Vehicle_MASS);
   (v_Vrot, Dynamic_Atmosphere_DENSITY, d_Vrot__Atmosphere_DENSITY);
   (v_Vrot, Aircraft_Wing_AREA, d_Vrot__Wing_AREA);
   (v_Vrot, v_CL_max, d_Vrot__CL_max)].

(** Inputs, outputs and declared partials: /repo/aviary/mission/two_dof/ode/v_rotate_comp.py L14-51 *)
Definition VRotateComp (op : options) : comp := {|
  c_ins := [Aircraft_Wing_AREA;
            v_CL_max;
            Dynamic_Vehicle_MASS;
            Dynamic_Atmosphere_DENSITY;
            v_dV1;
            v_dVR];
  c_outs := [v_Vrot];
  c_decl := [(v_Vrot, v_dV1, 1);
             (v_Vrot, v_dVR, 1);
             (v_Vrot, Dynamic_Vehicle_MASS, 0);
             (v_Vrot, Dynamic_Atmosphere_DENSITY, 0);
             (v_Vrot, Aircraft_Wing_AREA, 0);
             (v_Vrot, v_CL_max, 0)];
  c_run := VRotateComp_compute op; c_jac := VRotateComp_partials op |}.

(** FlightConstraints.compute, /repo/aviary/mission/two_dof/ode/constraints/flight_constraints.py L127-144 *)
Definition FlightConstraints_compute (op : options) (e : env) : list (string * R) :=
  let weight := e Dynamic_Vehicle_MASS * GRAV_ENGLISH_LBM in  (* L128 *)
  let wing_area := e Aircraft_Wing_AREA in  (* L129 *)
  let rho := e Dynamic_Atmosphere_DENSITY in  (* L130 *)
  let CL_max := e v_CL_max in  (* L131 *)
  let gamma := e Dynamic_Mission_FLIGHT_PATH_ANGLE in  (* L132 *)
  let i_wing := e Aircraft_Wing_INCIDENCE in  (* L133 *)
  let alpha := e Dynamic_Vehicle_ANGLE_OF_ATTACK in  (* L134 *)
  let TAS := e Dynamic_Mission_VELOCITY in  (* L135 *)
  let V_stall := (2 * weight / (wing_area * rho * CL_max)) ** (5 / 10) in  (* L137 *)
  let TAS_min := 11 / 10 * V_stall in  (* L138 *)
  let o_TAS_min := TAS_min in  (* L141 *)
  let o_theta := gamma - i_wing + alpha in  (* L143 *)
  let o_TAS_violation := TAS_min - TAS in  (* L144 *)
  [(v_TAS_min, o_TAS_min);
   (v_theta, o_theta);
   (v_TAS_violation, o_TAS_violation)].

(** FlightConstraints.compute_partials, /repo/aviary/mission/two_dof/ode/constraints/flight_constraints.py L146-185 *)
Definition FlightConstraints_partials (op : options) (e : env) : list (string * string * R) :=
  let weight := e Dynamic_Vehicle_MASS * GRAV_ENGLISH_LBM in  (* L147 *)
  let wing_area := e Aircraft_Wing_AREA in  (* L148 *)
  let rho := e Dynamic_Atmosphere_DENSITY in  (* L149 *)
  let CL_max := e v_CL_max in  (* L150 *)
  let d_theta__Mission_FLIGHT_PATH_ANGLE := 1 in  (* L152 *)
  let d_theta__Vehicle_ANGLE_OF_ATTACK := 1 in  (* L153 *)
  let d_theta__Wing_INCIDENCE := - 1 in  (* L154 *)
  let d_TAS_violation__Vehicle_MASS := 11 / 10 * (5 / 10) * (2 / (wing_area * rho * CL_max)) ** (5 / 10) * weight **
      (- 5 / 10) * GRAV_ENGLISH_LBM in  (* L156 *)
  let d_TAS_violation__Atmosphere_DENSITY := 11 / 10 * (2 * weight / (wing_area * CL_max)) ** (5 / 10) * (- 5 / 10) *
      rho ** (- 15 / 10) in  (* L163 *)
  let d_TAS_violation__CL_max := 11 / 10 * (2 * weight / (wing_area * rho)) ** (5 / 10) * (- 5 / 10) * CL_max ** (- 15
      / 10) in  (* L166 *)
  let d_TAS_violation__Mission_VELOCITY := - 1 in  (* L169 *)
  let d_TAS_violation__Wing_AREA := 11 / 10 * (2 * weight / (rho * CL_max)) ** (5 / 10) * (- 5 / 10) * wing_area ** (-
      15 / 10) in  (* L170 *)
  let d_TAS_min__Vehicle_MASS := 11 / 10 * (5 / 10 * (2 / (wing_area * rho * CL_max)) ** (5 / 10) * weight ** (- 5 /
      10) * GRAV_ENGLISH_LBM) in  (* L174 *)
  let d_TAS_min__Atmosphere_DENSITY := 11 / 10 * ((2 * weight / (wing_area * CL_max)) ** (5 / 10) * (- 5 / 10) * rho
      ** (- 15 / 10)) in  (* L177 *)
  let d_TAS_min__CL_max := 11 / 10 * ((2 * weight / (wing_area * rho)) ** (5 / 10) * (- 5 / 10) * CL_max ** (- 15 /
      10)) in  (* L180 *)
  let d_TAS_min__Wing_AREA := 11 / 10 * ((2 * weight / (rho * CL_max)) ** (5 / 10) * (- 5 / 10) * wing_area ** (- 15 /
      10)) in  (* L183 *)
  [(v_theta, Dynamic_Mission_FLIGHT_PATH_ANGLE, d_theta__Mission_FLIGHT_PATH_ANGLE);
   (v_theta, Dynamic_Vehicle_ANGLE_OF_ATTACK, d_theta__Vehicle_ANGLE_OF_ATTACK);
   (v_theta, Aircraft_Wing_INCIDENCE, d_theta__Wing_INCIDENCE);
   (v_TAS_violation, Dynamic_Vehicle_MASS, d_TAS_violation__Vehicle_MASS);
   (v_TAS_violation, Dynamic_Atmosphere_DENSITY, d_TAS_violation__Atmosphere_DENSITY);
   (v_TAS_violation, v_CL_max, d_TAS_violation__CL_max);
   (v_TAS_violation, Dynamic_Mission_VELOCITY, d_TAS_violation__Mission_VELOCITY);
   (v_TAS_violation, Aircraft_Wing_AREA, d_TAS_violation__Wing_AREA);
   (v_TAS_min, Dynamic_Vehicle_MASS, d_TAS_min__Vehicle_MASS);
   (v_TAS_min, Dynamic_Atmosphere_DENSITY, d_TAS_min__Atmosphere_DENSITY);
   (v_TAS_min, v_CL_max, d_TAS_min__CL_max);
   (v_TAS_min, Aircraft_Wing_AREA, d_TAS_min__Wing_AREA)].

(** Inputs, outputs and declared partials: /repo/aviary/mission/two_dof/ode/constraints/flight_constraints.py L22-125 *)
Definition FlightConstraints (op : options) : comp := {|
  c_ins := [Dynamic_Vehicle_MASS;
            Aircraft_Wing_AREA;
            Dynamic_Atmosphere_DENSITY;
            v_CL_max;
            Dynamic_Mission_FLIGHT_PATH_ANGLE;
            Aircraft_Wing_INCIDENCE;
            Dynamic_Vehicle_ANGLE_OF_ATTACK;
            Dynamic_Mission_VELOCITY];
  c_outs := [v_theta;
             v_TAS_violation;
             v_TAS_min];
  c_decl := [(v_theta, Dynamic_Mission_FLIGHT_PATH_ANGLE, 0);
             (v_theta, Dynamic_Vehicle_ANGLE_OF_ATTACK, 0);
             (v_theta, Aircraft_Wing_INCIDENCE, 0);
             (v_TAS_violation, Dynamic_Vehicle_MASS, 0);
             (v_TAS_violation, Dynamic_Atmosphere_DENSITY, 0);
             (v_TAS_violation, v_CL_max, 0);
             (v_TAS_violation, Dynamic_Mission_VELOCITY, 0);
             (v_TAS_violation, Aircraft_Wing_AREA, 0);
             (v_TAS_min, Dynamic_Vehicle_MASS, 0);
             (v_TAS_min, Dynamic_Atmosphere_DENSITY, 0);
             (v_TAS_min, v_CL_max, 0);
             (v_TAS_min, Aircraft_Wing_AREA, 0)];
  c_run := FlightConstraints_compute op; c_jac := FlightConstraints_partials op |}.

(** The inputs that are scalars, shared by all nodes. *)
Definition FlightConstraints_shared : list string := [Aircraft_Wing_AREA; Aircraft_Wing_INCIDENCE].

(** ClimbAtTopOfClimb.compute, /repo/aviary/mission/two_dof/ode/constraints/flight_constraints.py L197-200 *)
Definition ClimbAtTopOfClimb_compute (op : options) (e : env) : list (string * R) :=
  let o_ROC := e Dynamic_Mission_VELOCITY * sin (e Dynamic_Mission_FLIGHT_PATH_ANGLE) in  (* L198 *)
  [(v_ROC, o_ROC)].

(** ClimbAtTopOfClimb.compute_partials, /repo/aviary/mission/two_dof/ode/constraints/flight_constraints.py L202-206 *)
Definition ClimbAtTopOfClimb_partials (op : options) (e : env) : list (string * string * R) :=
  let d_ROC__Mission_VELOCITY := sin (e Dynamic_Mission_FLIGHT_PATH_ANGLE) in  (* L203 *)
  let d_ROC__Mission_FLIGHT_PATH_ANGLE := e Dynamic_Mission_VELOCITY * cos (e Dynamic_Mission_FLIGHT_PATH_ANGLE) in  (* L204 *)
  [(v_ROC, Dynamic_Mission_VELOCITY, d_ROC__Mission_VELOCITY);
   (v_ROC, Dynamic_Mission_FLIGHT_PATH_ANGLE, d_ROC__Mission_FLIGHT_PATH_ANGLE)].

(** Inputs, outputs and declared partials: /repo/aviary/mission/two_dof/ode/constraints/flight_constraints.py L191-195 *)
Definition ClimbAtTopOfClimb (op : options) : comp := {|
  c_ins := [Dynamic_Mission_VELOCITY;
            Dynamic_Mission_FLIGHT_PATH_ANGLE];
  c_outs := [v_ROC];
  c_decl := [(v_ROC, Dynamic_Mission_VELOCITY, 0);
             (v_ROC, Dynamic_Mission_FLIGHT_PATH_ANGLE, 0)];
  c_run := ClimbAtTopOfClimb_compute op; c_jac := ClimbAtTopOfClimb_partials op |}.
