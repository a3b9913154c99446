(** Energy-state equations of motion: /repo/aviary/mission/energy_state/ode and /repo/aviary/mission/ode.

    The option climbing decides which variables exist, so each value of it is its own component.

    Generated by tools/py2coq.py from the source text; see the header of that file for the rules.  Decimal
    literals are exact and numbers are real numbers. *)
From Coq Require Import Reals.
From Verif Require Import Base Comp.
Open Scope list_scope.
Open Scope string_scope.
Local Open Scope R_scope.

(** ** Variable names, /repo/aviary/variable_info/variables.py *)
Definition Aircraft_Wing_AREA := "aircraft:wing:area".
Definition Dynamic_Atmosphere_DENSITY := "density".
Definition Dynamic_Mission_ALTITUDE_RATE := "altitude_rate".
Definition Dynamic_Mission_DISTANCE_RATE := "distance_rate".
Definition Dynamic_Mission_FLIGHT_PATH_ANGLE := "flight_path_angle".
Definition Dynamic_Mission_FLIGHT_PATH_ANGLE_RATE := "flight_path_angle_rate".
Definition Dynamic_Mission_SPECIFIC_ENERGY_RATE := "specific_energy_rate".
Definition Dynamic_Mission_VELOCITY := "velocity".
Definition Dynamic_Mission_VELOCITY_RATE := "velocity_rate".
Definition Dynamic_Vehicle_ANGLE_OF_ATTACK := "angle_of_attack".
Definition Dynamic_Vehicle_DRAG := "drag".
Definition Dynamic_Vehicle_LIFT := "lift".
Definition Dynamic_Vehicle_MASS := "mass".
Definition Dynamic_Vehicle_Propulsion_THRUST_TOTAL := "thrust_net_total".
Definition Mission_GRAVITY := "mission:gravity".
Definition Mission_Takeoff_ANGLE_OF_ATTACK_RUNWAY := "mission:takeoff:angle_of_attack_runway".
Definition Mission_Takeoff_THRUST_INCIDENCE := "mission:takeoff:thrust_incidence".
Definition v_acceleration_horizontal := "acceleration_horizontal".
Definition v_acceleration_vertical := "acceleration_vertical".
Definition v_climb_gradient_forces_horizontal := "climb_gradient_forces_horizontal".
Definition v_climb_gradient_forces_vertical := "climb_gradient_forces_vertical".
Definition v_forces_horizontal := "forces_horizontal".
Definition v_forces_perpendicular := "forces_perpendicular".
Definition v_forces_vertical := "forces_vertical".
Definition v_friction_coefficient := "friction_coefficient".
Definition v_lift_coefficient_max := "lift_coefficient_max".
Definition v_num_nodes := "num_nodes".
Definition v_required_thrust := "required_thrust".
Definition v_stall_speed := "stall_speed".
Definition v_thrust_required := "thrust_required".


(** GlideSlopeForces.compute, /repo/aviary/mission/energy_state/ode/landing_eom.py L171-203 *)
Definition GlideSlopeForces_compute (op : options) (e : env) : list (string * R) :=
  let alpha0 := on op Mission_Takeoff_ANGLE_OF_ATTACK_RUNWAY in  (* L172 *)
  let t_inc := on op Mission_Takeoff_THRUST_INCIDENCE in  (* L173 *)
  let grav_metric := on op Mission_GRAVITY in  (* L174 *)
  let mass := e Dynamic_Vehicle_MASS in  (* L176 *)
  let lift := e Dynamic_Vehicle_LIFT in  (* L177 *)
  let drag := e Dynamic_Vehicle_DRAG in  (* L178 *)
  let weight := mass * grav_metric in  (* L180 *)
  let alpha := e Dynamic_Vehicle_ANGLE_OF_ATTACK in  (* L182 *)
  let gamma := e Dynamic_Mission_FLIGHT_PATH_ANGLE in  (* L183 *)
  let gamma := - gamma in  (* L186 *)
  let angle := alpha - alpha0 + t_inc in  (* L188 *)
  let c_angle := cos angle in  (* L190 *)
  let s_angle := sin angle in  (* L191 *)
  let c_gamma := cos gamma in  (* L193 *)
  let s_gamma := sin gamma in  (* L194 *)
  let f_h := (drag - weight * s_gamma) / c_angle in  (* L199 *)
  let f_v := (weight * c_gamma - lift) / s_angle in  (* L200 *)
  let o_forces_perpendicular := f_h - f_v in  (* L202 *)
  let o_required_thrust := (f_h + f_v) / 2 in  (* L203 *)
  [(v_forces_perpendicular, o_forces_perpendicular);
   (v_required_thrust, o_required_thrust)].

(** GlideSlopeForces.compute_partials, /repo/aviary/mission/energy_state/ode/landing_eom.py L205-265 *)
Definition GlideSlopeForces_partials (op : options) (e : env) : list (string * string * R) :=
  let alpha0 := on op Mission_Takeoff_ANGLE_OF_ATTACK_RUNWAY in  (* L206 *)
  let t_inc := on op Mission_Takeoff_THRUST_INCIDENCE in  (* L207 *)
  let grav_metric := on op Mission_GRAVITY in  (* L208 *)
  let mass := e Dynamic_Vehicle_MASS in  (* L210 *)
  let lift := e Dynamic_Vehicle_LIFT in  (* L211 *)
  let drag := e Dynamic_Vehicle_DRAG in  (* L212 *)
  let weight := mass * grav_metric in  (* L214 *)
  let alpha := e Dynamic_Vehicle_ANGLE_OF_ATTACK in  (* L216 *)
  let gamma := e Dynamic_Mission_FLIGHT_PATH_ANGLE in  (* L217 *)
  let gamma := - gamma in  (* L220 *)
  let angle := alpha - alpha0 + t_inc in  (* L222 *)
  let c_angle := cos angle in  (* L224 *)
  let s_angle := sin angle in  (* L225 *)
  let c_gamma := cos gamma in  (* L227 *)
  let s_gamma := sin gamma in  (* L228 *)
  let f_h := - grav_metric * s_gamma / c_angle in  (* L233 *)
  let f_v := grav_metric * c_gamma / s_angle in  (* L234 *)
  let d_forces_perpendicular__Vehicle_MASS := f_h - f_v in  (* L236 *)
  let d_required_thrust__Vehicle_MASS := (f_h + f_v) / 2 in  (* L237 *)
  let f_h := 0 in  (* L239 *)
  let f_v := - 1 / s_angle in  (* L240 *)
  let d_forces_perpendicular__Vehicle_LIFT := - f_v in  (* L242 *)
  let d_required_thrust__Vehicle_LIFT := f_v / 2 in  (* L243 *)
  let f_h := 1 / c_angle in  (* L245 *)
  let f_v := 0 in  (* L246 *)
  let d_forces_perpendicular__Vehicle_DRAG := f_h in  (* L248 *)
  let d_required_thrust__Vehicle_DRAG := f_h / 2 in  (* L249 *)
  let t_angle := tan angle in  (* L253 *)
  let f_h := t_angle * (drag - weight * s_gamma) / c_angle in  (* L255 *)
  let f_v := - (weight * c_gamma - lift) / (s_angle * t_angle) in  (* L256 *)
  let d_forces_perpendicular__Vehicle_ANGLE_OF_ATTACK := f_h - f_v in  (* L258 *)
  let d_required_thrust__Vehicle_ANGLE_OF_ATTACK := (f_h + f_v) / 2 in  (* L259 *)
  let f_h := - weight * c_gamma / c_angle in  (* L261 *)
  let f_v := - weight * s_gamma / s_angle in  (* L262 *)
  let d_forces_perpendicular__Mission_FLIGHT_PATH_ANGLE := - f_h + f_v in  (* L264 *)
  let d_required_thrust__Mission_FLIGHT_PATH_ANGLE := - (f_h + f_v) / 2 in  (* L265 *)
  [(v_forces_perpendicular, Dynamic_Vehicle_MASS, d_forces_perpendicular__Vehicle_MASS);
   (v_required_thrust, Dynamic_Vehicle_MASS, d_required_thrust__Vehicle_MASS);
   (v_forces_perpendicular, Dynamic_Vehicle_LIFT, d_forces_perpendicular__Vehicle_LIFT);
   (v_required_thrust, Dynamic_Vehicle_LIFT, d_required_thrust__Vehicle_LIFT);
   (v_forces_perpendicular, Dynamic_Vehicle_DRAG, d_forces_perpendicular__Vehicle_DRAG);
   (v_required_thrust, Dynamic_Vehicle_DRAG, d_required_thrust__Vehicle_DRAG);
   (v_forces_perpendicular, Dynamic_Vehicle_ANGLE_OF_ATTACK, d_forces_perpendicular__Vehicle_ANGLE_OF_ATTACK);
   (v_required_thrust, Dynamic_Vehicle_ANGLE_OF_ATTACK, d_required_thrust__Vehicle_ANGLE_OF_ATTACK);
   (v_forces_perpendicular, Dynamic_Mission_FLIGHT_PATH_ANGLE, d_forces_perpendicular__Mission_FLIGHT_PATH_ANGLE);
   (v_required_thrust, Dynamic_Mission_FLIGHT_PATH_ANGLE, d_required_thrust__Mission_FLIGHT_PATH_ANGLE)].

(** Inputs, outputs and declared partials: /repo/aviary/mission/energy_state/ode/landing_eom.py L140-169 *)
Definition GlideSlopeForces (op : options) : comp := {|
  c_ins := [Dynamic_Vehicle_MASS;
            Dynamic_Vehicle_LIFT;
            Dynamic_Vehicle_DRAG;
            Dynamic_Vehicle_ANGLE_OF_ATTACK;
            Dynamic_Mission_FLIGHT_PATH_ANGLE];
  c_outs := [v_forces_perpendicular;
             v_required_thrust];
  c_decl := [(v_forces_perpendicular, Dynamic_Vehicle_MASS, 0);
             (v_forces_perpendicular, Dynamic_Vehicle_LIFT, 0);
             (v_forces_perpendicular, Dynamic_Vehicle_DRAG, 0);
             (v_forces_perpendicular, Dynamic_Vehicle_ANGLE_OF_ATTACK, 0);
             (v_forces_perpendicular, Dynamic_Mission_FLIGHT_PATH_ANGLE, 0);
             (v_required_thrust, Dynamic_Vehicle_MASS, 0);
             (v_required_thrust, Dynamic_Vehicle_LIFT, 0);
             (v_required_thrust, Dynamic_Vehicle_DRAG, 0);
             (v_required_thrust, Dynamic_Vehicle_ANGLE_OF_ATTACK, 0);
             (v_required_thrust, Dynamic_Mission_FLIGHT_PATH_ANGLE, 0)];
  c_run := GlideSlopeForces_compute op; c_jac := GlideSlopeForces_partials op |}.

(** The inputs that are scalars, shared by all nodes. *)
Definition GlideSlopeForces_shared : list string := [].

(** FlareSumForces.compute, /repo/aviary/mission/energy_state/ode/landing_eom.py L332-365 *)
Definition FlareSumForces_compute (op : options) (e : env) : list (string * R) :=
  let alpha0 := on op Mission_Takeoff_ANGLE_OF_ATTACK_RUNWAY in  (* L333 *)
  let t_inc := on op Mission_Takeoff_THRUST_INCIDENCE in  (* L334 *)
  let grav_metric := on op Mission_GRAVITY in  (* L335 *)
  let mass := e Dynamic_Vehicle_MASS in  (* L337 *)
  let lift := e Dynamic_Vehicle_LIFT in  (* L338 *)
  let thrust := e Dynamic_Vehicle_Propulsion_THRUST_TOTAL in  (* L339 *)
  let drag := e Dynamic_Vehicle_DRAG in  (* L340 *)
  let alpha := e Dynamic_Vehicle_ANGLE_OF_ATTACK in  (* L342 *)
  let gamma := e Dynamic_Mission_FLIGHT_PATH_ANGLE in  (* L343 *)
  let gamma := - gamma in  (* L346 *)
  let weight := mass * grav_metric in  (* L348 *)
  let angle := alpha - alpha0 + t_inc - gamma in  (* L350 *)
  let c_angle := cos angle in  (* L352 *)
  let s_angle := sin angle in  (* L353 *)
  let c_gamma := cos gamma in  (* L355 *)
  let s_gamma := sin gamma in  (* L356 *)
  let f_h := drag * c_gamma - lift * s_gamma - thrust * c_angle in  (* L361 *)
  let o_forces_horizontal := f_h in  (* L362 *)
  let f_v := lift * c_gamma + drag * s_gamma - weight + thrust * s_angle in  (* L364 *)
  let o_forces_vertical := f_v in  (* L365 *)
  [(v_forces_horizontal, o_forces_horizontal);
   (v_forces_vertical, o_forces_vertical)].

(** FlareSumForces.compute_partials, /repo/aviary/mission/energy_state/ode/landing_eom.py L367-408 *)
Definition FlareSumForces_partials (op : options) (e : env) : list (string * string * R) :=
  let alpha0 := on op Mission_Takeoff_ANGLE_OF_ATTACK_RUNWAY in  (* L368 *)
  let t_inc := on op Mission_Takeoff_THRUST_INCIDENCE in  (* L369 *)
  let lift := e Dynamic_Vehicle_LIFT in  (* L371 *)
  let thrust := e Dynamic_Vehicle_Propulsion_THRUST_TOTAL in  (* L372 *)
  let drag := e Dynamic_Vehicle_DRAG in  (* L373 *)
  let alpha := e Dynamic_Vehicle_ANGLE_OF_ATTACK in  (* L375 *)
  let gamma := e Dynamic_Mission_FLIGHT_PATH_ANGLE in  (* L376 *)
  let gamma := - gamma in  (* L379 *)
  let angle := alpha - alpha0 + t_inc - gamma in  (* L381 *)
  let c_angle := cos angle in  (* L383 *)
  let s_angle := sin angle in  (* L384 *)
  let c_gamma := cos gamma in  (* L386 *)
  let s_gamma := sin gamma in  (* L387 *)
  let d_forces_horizontal__Vehicle_LIFT := - s_gamma in  (* L390 *)
  let d_forces_vertical__Vehicle_LIFT := c_gamma in  (* L393 *)
  let d_forces_horizontal__Vehicle_Propulsion_THRUST_TOTAL := - c_angle in  (* L395 *)
  let d_forces_vertical__Vehicle_Propulsion_THRUST_TOTAL := s_angle in  (* L396 *)
  let d_forces_horizontal__Vehicle_DRAG := c_gamma in  (* L398 *)
  let d_forces_vertical__Vehicle_DRAG := s_gamma in  (* L399 *)
  let d_forces_horizontal__Vehicle_ANGLE_OF_ATTACK := thrust * s_angle in  (* L401 *)
  let d_forces_vertical__Vehicle_ANGLE_OF_ATTACK := thrust * c_angle in  (* L402 *)
  let f_h := - drag * s_gamma - lift * c_gamma - thrust * s_angle in  (* L404 *)
  let d_forces_horizontal__Mission_FLIGHT_PATH_ANGLE := - f_h in  (* L405 *)
  let f_v := - lift * s_gamma + drag * c_gamma - thrust * c_angle in  (* L407 *)
  let d_forces_vertical__Mission_FLIGHT_PATH_ANGLE := - f_v in  (* L408 *)
  [(v_forces_horizontal, Dynamic_Vehicle_LIFT, d_forces_horizontal__Vehicle_LIFT);
   (v_forces_vertical, Dynamic_Vehicle_LIFT, d_forces_vertical__Vehicle_LIFT);
   (v_forces_horizontal, Dynamic_Vehicle_Propulsion_THRUST_TOTAL,
       d_forces_horizontal__Vehicle_Propulsion_THRUST_TOTAL);
   (v_forces_vertical, Dynamic_Vehicle_Propulsion_THRUST_TOTAL, d_forces_vertical__Vehicle_Propulsion_THRUST_TOTAL);
   (v_forces_horizontal, Dynamic_Vehicle_DRAG, d_forces_horizontal__Vehicle_DRAG);
   (v_forces_vertical, Dynamic_Vehicle_DRAG, d_forces_vertical__Vehicle_DRAG);
   (v_forces_horizontal, Dynamic_Vehicle_ANGLE_OF_ATTACK, d_forces_horizontal__Vehicle_ANGLE_OF_ATTACK);
   (v_forces_vertical, Dynamic_Vehicle_ANGLE_OF_ATTACK, d_forces_vertical__Vehicle_ANGLE_OF_ATTACK);
   (v_forces_horizontal, Dynamic_Mission_FLIGHT_PATH_ANGLE, d_forces_horizontal__Mission_FLIGHT_PATH_ANGLE);
   (v_forces_vertical, Dynamic_Mission_FLIGHT_PATH_ANGLE, d_forces_vertical__Mission_FLIGHT_PATH_ANGLE)].

(** Inputs, outputs and declared partials: /repo/aviary/mission/energy_state/ode/landing_eom.py L281-330 *)
Definition FlareSumForces (op : options) : comp := {|
  c_ins := [Dynamic_Vehicle_MASS;
            Dynamic_Vehicle_LIFT;
            Dynamic_Vehicle_Propulsion_THRUST_TOTAL;
            Dynamic_Vehicle_DRAG;
            Dynamic_Vehicle_ANGLE_OF_ATTACK;
            Dynamic_Mission_FLIGHT_PATH_ANGLE];
  c_outs := [v_forces_horizontal;
             v_forces_vertical];
  c_decl := [(v_forces_horizontal, Dynamic_Vehicle_MASS, 0);
             (v_forces_vertical, Dynamic_Vehicle_MASS, - (on op Mission_GRAVITY));
             (v_forces_horizontal, Dynamic_Vehicle_LIFT, 0);
             (v_forces_horizontal, Dynamic_Vehicle_Propulsion_THRUST_TOTAL, 0);
             (v_forces_horizontal, Dynamic_Vehicle_DRAG, 0);
             (v_forces_horizontal, Dynamic_Vehicle_ANGLE_OF_ATTACK, 0);
             (v_forces_horizontal, Dynamic_Mission_FLIGHT_PATH_ANGLE, 0);
             (v_forces_vertical, Dynamic_Vehicle_LIFT, 0);
             (v_forces_vertical, Dynamic_Vehicle_Propulsion_THRUST_TOTAL, 0);
             (v_forces_vertical, Dynamic_Vehicle_DRAG, 0);
             (v_forces_vertical, Dynamic_Vehicle_ANGLE_OF_ATTACK, 0);
             (v_forces_vertical, Dynamic_Mission_FLIGHT_PATH_ANGLE, 0)];
  c_run := FlareSumForces_compute op; c_jac := FlareSumForces_partials op |}.

(** The inputs that are scalars, shared by all nodes. *)
Definition FlareSumForces_shared : list string := [].

(** GroundSumForces.compute, /repo/aviary/mission/energy_state/ode/landing_eom.py L496-519 *)
Definition GroundSumForces_compute (op : options) (e : env) : list (string * R) :=
  let nn := on op v_num_nodes in  (* L499 *)
  let friction_coefficient := on op v_friction_coefficient in  (* L500 *)
  let grav_metric := on op Mission_GRAVITY in  (* L502 *)
  let mass := e Dynamic_Vehicle_MASS in  (* L504 *)
  let lift := e Dynamic_Vehicle_LIFT in  (* L505 *)
  let thrust := e Dynamic_Vehicle_Propulsion_THRUST_TOTAL in  (* L506 *)
  let drag := e Dynamic_Vehicle_DRAG in  (* L507 *)
  let weight := mass * grav_metric in  (* L509 *)
  let f_v := lift - weight in  (* L511 *)
  let o_forces_vertical := f_v in  (* L512 *)
  let idx_sup := ltb f_v 0 in  (* L514 *)
  let friction := 0 in  (* L515 *)
  let friction := if idx_sup then - friction_coefficient * f_v else friction in  (* L516 *)
  let f_h := friction + drag - thrust in  (* L518 *)
  let o_forces_horizontal := f_h in  (* L519 *)
  [(v_forces_vertical, o_forces_vertical);
   (v_forces_horizontal, o_forces_horizontal)].

(** GroundSumForces.compute_partials, /repo/aviary/mission/energy_state/ode/landing_eom.py L521-544 *)
Definition GroundSumForces_partials (op : options) (e : env) : list (string * string * R) :=
  let nn := on op v_num_nodes in  (* L524 *)
  let friction_coefficient := on op v_friction_coefficient in  (* L525 *)
  let grav_metric := on op Mission_GRAVITY in  (* L527 *)
  let mass := e Dynamic_Vehicle_MASS in  (* L529 *)
  let lift := e Dynamic_Vehicle_LIFT in  (* L530 *)
  let weight := mass * grav_metric in  (* L532 *)
  let f_v := lift - weight in  (* L534 *)
  let idx_sup := ltb f_v 0 in  (* L536 *)
  let friction := 0 in  (* L537 *)
  let friction := if idx_sup then friction_coefficient * grav_metric else friction in  (* L538 *)
  let d_forces_horizontal__Vehicle_MASS := friction in  (* L540 *)
  let friction := 0 in  (* L542 *)
  let friction := if idx_sup then - friction_coefficient else friction in  (* L543 *)
  let d_forces_horizontal__Vehicle_LIFT := friction in  (* L544 *)
  [(v_forces_horizontal, Dynamic_Vehicle_MASS, d_forces_horizontal__Vehicle_MASS);
   (v_forces_horizontal, Dynamic_Vehicle_LIFT, d_forces_horizontal__Vehicle_LIFT)].

(** Inputs, outputs and declared partials: /repo/aviary/mission/energy_state/ode/landing_eom.py L430-494 *)
Definition GroundSumForces (op : options) : comp := {|
  c_ins := [Dynamic_Vehicle_MASS;
            Dynamic_Vehicle_LIFT;
            Dynamic_Vehicle_Propulsion_THRUST_TOTAL;
            Dynamic_Vehicle_DRAG];
  c_outs := [v_forces_horizontal;
             v_forces_vertical];
  c_decl := [(v_forces_vertical, Dynamic_Vehicle_MASS, - (on op Mission_GRAVITY));
             (v_forces_vertical, Dynamic_Vehicle_LIFT, 1);
             (v_forces_vertical, Dynamic_Vehicle_Propulsion_THRUST_TOTAL, 0);
             (v_forces_vertical, Dynamic_Vehicle_DRAG, 0);
             (v_forces_horizontal, Dynamic_Vehicle_MASS, 0);
             (v_forces_horizontal, Dynamic_Vehicle_LIFT, 0);
             (v_forces_horizontal, Dynamic_Vehicle_Propulsion_THRUST_TOTAL, - 1);
             (v_forces_horizontal, Dynamic_Vehicle_DRAG, 1)];
  c_run := GroundSumForces_compute op; c_jac := GroundSumForces_partials op |}.

(** The inputs that are scalars, shared by all nodes. *)
Definition GroundSumForces_shared : list string := [].

(** RangeRate.compute, /repo/aviary/mission/energy_state/ode/range_rate.py L42-49 *)
Definition RangeRate_compute (op : options) (e : env) : list (string * R) :=
  let climb_rate := e Dynamic_Mission_ALTITUDE_RATE in  (* L43 *)
  let velocity := e Dynamic_Mission_VELOCITY in  (* L44 *)
  let climb_rate_2 := climb_rate ^ 2 in  (* L45 *)
  let velocity_2 := velocity ^ 2 in  (* L46 *)
  let o_Mission_DISTANCE_RATE := (velocity_2 - climb_rate_2) ** (5 / 10) in  (* L49 *)
  [(Dynamic_Mission_DISTANCE_RATE, o_Mission_DISTANCE_RATE)].

(** RangeRate.compute_partials, /repo/aviary/mission/energy_state/ode/range_rate.py L60-69 *)
Definition RangeRate_partials (op : options) (e : env) : list (string * string * R) :=
  let climb_rate := e Dynamic_Mission_ALTITUDE_RATE in  (* L61 *)
  let velocity := e Dynamic_Mission_VELOCITY in  (* L62 *)
  let d_Mission_DISTANCE_RATE__Mission_ALTITUDE_RATE := - climb_rate / (velocity ^ 2 - climb_rate ^ 2) ** (5 / 10) in  (* L64 *)
  let d_Mission_DISTANCE_RATE__Mission_VELOCITY := velocity / (velocity ^ 2 - climb_rate ^ 2) ** (5 / 10) in  (* L67 *)
  [(Dynamic_Mission_DISTANCE_RATE, Dynamic_Mission_ALTITUDE_RATE, d_Mission_DISTANCE_RATE__Mission_ALTITUDE_RATE);
   (Dynamic_Mission_DISTANCE_RATE, Dynamic_Mission_VELOCITY, d_Mission_DISTANCE_RATE__Mission_VELOCITY)].

(** Inputs, outputs and declared partials: /repo/aviary/mission/energy_state/ode/range_rate.py L17-58 *)
Definition RangeRate (op : options) : comp := {|
  c_ins := [Dynamic_Mission_ALTITUDE_RATE;
            Dynamic_Mission_VELOCITY];
  c_outs := [Dynamic_Mission_DISTANCE_RATE];
  c_decl := [(Dynamic_Mission_DISTANCE_RATE, Dynamic_Mission_ALTITUDE_RATE, 0);
             (Dynamic_Mission_DISTANCE_RATE, Dynamic_Mission_VELOCITY, 0)];
  c_run := RangeRate_compute op; c_jac := RangeRate_partials op |}.

(** The inputs that are scalars, shared by all nodes. *)
Definition RangeRate_shared : list string := [].

(** RequiredThrust.compute, /repo/aviary/mission/energy_state/ode/required_thrust.py L51-61 *)
Definition RequiredThrust_compute (op : options) (e : env) : list (string * R) :=
  let grav_metric := on op Mission_GRAVITY in  (* L52 *)
  let drag := e Dynamic_Vehicle_DRAG in  (* L53 *)
  let altitude_rate := e Dynamic_Mission_ALTITUDE_RATE in  (* L54 *)
  let velocity := e Dynamic_Mission_VELOCITY in  (* L55 *)
  let velocity_rate := e Dynamic_Mission_VELOCITY_RATE in  (* L56 *)
  let mass := e Dynamic_Vehicle_MASS in  (* L57 *)
  let thrust_required := drag + (altitude_rate * grav_metric / velocity + velocity_rate) * mass in  (* L59 *)
  let o_thrust_required := thrust_required in  (* L61 *)
  [(v_thrust_required, o_thrust_required)].

(** RequiredThrust.compute_partials, /repo/aviary/mission/energy_state/ode/required_thrust.py L63-78 *)
Definition RequiredThrust_partials (op : options) (e : env) : list (string * string * R) :=
  let grav_metric := on op Mission_GRAVITY in  (* L64 *)
  let altitude_rate := e Dynamic_Mission_ALTITUDE_RATE in  (* L65 *)
  let velocity := e Dynamic_Mission_VELOCITY in  (* L66 *)
  let velocity_rate := e Dynamic_Mission_VELOCITY_RATE in  (* L67 *)
  let mass := e Dynamic_Vehicle_MASS in  (* L68 *)
  let d_thrust_required__Vehicle_DRAG := 1 in  (* L70 *)
  let d_thrust_required__Mission_ALTITUDE_RATE := grav_metric / velocity * mass in  (* L71 *)
  let d_thrust_required__Mission_VELOCITY := - altitude_rate * grav_metric / velocity ^ 2 * mass in  (* L72 *)
  let d_thrust_required__Mission_VELOCITY_RATE := mass in  (* L75 *)
  let d_thrust_required__Vehicle_MASS := altitude_rate * grav_metric / velocity + velocity_rate in  (* L76 *)
  [(v_thrust_required, Dynamic_Vehicle_DRAG, d_thrust_required__Vehicle_DRAG);
   (v_thrust_required, Dynamic_Mission_ALTITUDE_RATE, d_thrust_required__Mission_ALTITUDE_RATE);
   (v_thrust_required, Dynamic_Mission_VELOCITY, d_thrust_required__Mission_VELOCITY);
   (v_thrust_required, Dynamic_Mission_VELOCITY_RATE, d_thrust_required__Mission_VELOCITY_RATE);
   (v_thrust_required, Dynamic_Vehicle_MASS, d_thrust_required__Vehicle_MASS)].

(** Inputs, outputs and declared partials: /repo/aviary/mission/energy_state/ode/required_thrust.py L18-49 *)
Definition RequiredThrust (op : options) : comp := {|
  c_ins := [Dynamic_Vehicle_DRAG;
            Dynamic_Mission_ALTITUDE_RATE;
            Dynamic_Mission_VELOCITY;
            Dynamic_Mission_VELOCITY_RATE;
            Dynamic_Vehicle_MASS];
  c_outs := [v_thrust_required];
  c_decl := [(v_thrust_required, Dynamic_Vehicle_DRAG, 0);
             (v_thrust_required, Dynamic_Mission_ALTITUDE_RATE, 0);
             (v_thrust_required, Dynamic_Mission_VELOCITY, 0);
             (v_thrust_required, Dynamic_Mission_VELOCITY_RATE, 0);
             (v_thrust_required, Dynamic_Vehicle_MASS, 0)];
  c_run := RequiredThrust_compute op; c_jac := RequiredThrust_partials op |}.

(** The inputs that are scalars, shared by all nodes. *)
Definition RequiredThrust_shared : list string := [].

(** StallSpeed.compute, /repo/aviary/mission/energy_state/ode/takeoff_eom.py L59-69 *)
Definition TakeoffStallSpeed_compute (op : options) (e : env) : list (string * R) :=
  let grav_metric := on op Mission_GRAVITY in  (* L60 *)
  let mass := e Dynamic_Vehicle_MASS in  (* L61 *)
  let density := e Dynamic_Atmosphere_DENSITY in  (* L62 *)
  let area := e Aircraft_Wing_AREA in  (* L63 *)
  let lift_coefficient_max := e v_lift_coefficient_max in  (* L64 *)
  let weight := mass * grav_metric in  (* L66 *)
  let stall_speed := (2 * weight / (density * area * lift_coefficient_max)) ** (5 / 10) in  (* L68 *)
  let o_stall_speed := stall_speed in  (* L69 *)
  [(v_stall_speed, o_stall_speed)].

(** StallSpeed.compute_partials, /repo/aviary/mission/energy_state/ode/takeoff_eom.py L71-96 *)
Definition TakeoffStallSpeed_partials (op : options) (e : env) : list (string * string * R) :=
  let grav_metric := on op Mission_GRAVITY in  (* L72 *)
  let mass := e Dynamic_Vehicle_MASS in  (* L73 *)
  let density := e Dynamic_Atmosphere_DENSITY in  (* L74 *)
  let area := e Aircraft_Wing_AREA in  (* L75 *)
  let lift_coefficient_max := e v_lift_coefficient_max in  (* L76 *)
  let weight := mass * grav_metric in  (* L78 *)
  let stall_speed := (2 * weight / (density * area * lift_coefficient_max)) ** (5 / 10) in  (* L80 *)
  let d_stall_speed__Vehicle_MASS := grav_metric / (stall_speed * density * area * lift_coefficient_max) in  (* L82 *)
  let d_stall_speed__Atmosphere_DENSITY := - weight / (stall_speed * density ^ 2 * area * lift_coefficient_max) in  (* L86 *)
  let d_stall_speed__Wing_AREA := - weight / (stall_speed * density * area ^ 2 * lift_coefficient_max) in  (* L90 *)
  let d_stall_speed__lift_coefficient_max := - weight / (stall_speed * density * area * lift_coefficient_max ^ 2) in  (* L94 *)
  [(v_stall_speed, Dynamic_Vehicle_MASS, d_stall_speed__Vehicle_MASS);
   (v_stall_speed, Dynamic_Atmosphere_DENSITY, d_stall_speed__Atmosphere_DENSITY);
   (v_stall_speed, Aircraft_Wing_AREA, d_stall_speed__Wing_AREA);
   (v_stall_speed, v_lift_coefficient_max, d_stall_speed__lift_coefficient_max)].

(** Inputs, outputs and declared partials: /repo/aviary/mission/energy_state/ode/takeoff_eom.py L21-57 *)
Definition TakeoffStallSpeed (op : options) : comp := {|
  c_ins := [Dynamic_Vehicle_MASS;
            Dynamic_Atmosphere_DENSITY;
            Aircraft_Wing_AREA;
            v_lift_coefficient_max];
  c_outs := [v_stall_speed];
  c_decl := [(v_stall_speed, Dynamic_Vehicle_MASS, 0);
             (v_stall_speed, Dynamic_Atmosphere_DENSITY, 0);
             (v_stall_speed, Aircraft_Wing_AREA, 0);
             (v_stall_speed, v_lift_coefficient_max, 0)];
  c_run := TakeoffStallSpeed_compute op; c_jac := TakeoffStallSpeed_partials op |}.

(** The inputs that are scalars, shared by all nodes. *)
Definition TakeoffStallSpeed_shared : list string := [Aircraft_Wing_AREA; v_lift_coefficient_max].

(** DistanceRates.compute, /repo/aviary/mission/energy_state/ode/takeoff_eom.py L233-250 with climbing = True *)
Definition DistanceRates_climbing_compute (op : options) (e : env) : list (string * R) :=
  let velocity := e Dynamic_Mission_VELOCITY in  (* L234 *)
  let flight_path_angle := e Dynamic_Mission_FLIGHT_PATH_ANGLE in  (* L237 *)
  let cgam := cos flight_path_angle in  (* L239 *)
  let range_rate := cgam * velocity in  (* L240 *)
  let sgam := sin flight_path_angle in  (* L242 *)
  let altitude_rate := sgam * velocity in  (* L243 *)
  let o_Mission_ALTITUDE_RATE := altitude_rate in  (* L245 *)
  let o_Mission_DISTANCE_RATE := range_rate in  (* L250 *)
  [(Dynamic_Mission_ALTITUDE_RATE, o_Mission_ALTITUDE_RATE);
   (Dynamic_Mission_DISTANCE_RATE, o_Mission_DISTANCE_RATE)].

(** DistanceRates.compute_partials, /repo/aviary/mission/energy_state/ode/takeoff_eom.py L252-264 *)
Definition DistanceRates_climbing_partials (op : options) (e : env) : list (string * string * R) :=
  let flight_path_angle := e Dynamic_Mission_FLIGHT_PATH_ANGLE in  (* L254 *)
  let velocity := e Dynamic_Mission_VELOCITY in  (* L255 *)
  let cgam := cos flight_path_angle in  (* L257 *)
  let sgam := sin flight_path_angle in  (* L258 *)
  let d_Mission_DISTANCE_RATE__Mission_FLIGHT_PATH_ANGLE := - sgam * velocity in  (* L260 *)
  let d_Mission_DISTANCE_RATE__Mission_VELOCITY := cgam in  (* L261 *)
  let d_Mission_ALTITUDE_RATE__Mission_FLIGHT_PATH_ANGLE := cgam * velocity in  (* L263 *)
  let d_Mission_ALTITUDE_RATE__Mission_VELOCITY := sgam in  (* L264 *)
  [(Dynamic_Mission_DISTANCE_RATE, Dynamic_Mission_FLIGHT_PATH_ANGLE,
      d_Mission_DISTANCE_RATE__Mission_FLIGHT_PATH_ANGLE);
   (Dynamic_Mission_DISTANCE_RATE, Dynamic_Mission_VELOCITY, d_Mission_DISTANCE_RATE__Mission_VELOCITY);
   (Dynamic_Mission_ALTITUDE_RATE, Dynamic_Mission_FLIGHT_PATH_ANGLE,
       d_Mission_ALTITUDE_RATE__Mission_FLIGHT_PATH_ANGLE);
   (Dynamic_Mission_ALTITUDE_RATE, Dynamic_Mission_VELOCITY, d_Mission_ALTITUDE_RATE__Mission_VELOCITY)].

(** Inputs, outputs and declared partials: /repo/aviary/mission/energy_state/ode/takeoff_eom.py L197-231 *)
Definition DistanceRates_climbing (op : options) : comp := {|
  c_ins := [Dynamic_Mission_FLIGHT_PATH_ANGLE;
            Dynamic_Mission_VELOCITY];
  c_outs := [Dynamic_Mission_DISTANCE_RATE;
             Dynamic_Mission_ALTITUDE_RATE];
  c_decl := [(Dynamic_Mission_DISTANCE_RATE, Dynamic_Mission_FLIGHT_PATH_ANGLE, 0);
             (Dynamic_Mission_DISTANCE_RATE, Dynamic_Mission_VELOCITY, 0);
             (Dynamic_Mission_ALTITUDE_RATE, Dynamic_Mission_FLIGHT_PATH_ANGLE, 0);
             (Dynamic_Mission_ALTITUDE_RATE, Dynamic_Mission_VELOCITY, 0)];
  c_run := DistanceRates_climbing_compute op; c_jac := DistanceRates_climbing_partials op |}.

(** The inputs that are scalars, shared by all nodes. *)
Definition DistanceRates_climbing_shared : list string := [].

(** DistanceRates.compute, /repo/aviary/mission/energy_state/ode/takeoff_eom.py L233-250 with climbing = False *)
Definition DistanceRates_ground_compute (op : options) (e : env) : list (string * R) :=
  let velocity := e Dynamic_Mission_VELOCITY in  (* L234 *)
  let range_rate := velocity in  (* L248 *)
  let o_Mission_DISTANCE_RATE := range_rate in  (* L250 *)
  [(Dynamic_Mission_DISTANCE_RATE, o_Mission_DISTANCE_RATE)].

(** DistanceRates.compute_partials, /repo/aviary/mission/energy_state/ode/takeoff_eom.py L252-264 *)
Definition DistanceRates_ground_partials (op : options) (e : env) : list (string * string * R) :=
  [].

(** Inputs, outputs and declared partials: /repo/aviary/mission/energy_state/ode/takeoff_eom.py L197-231 *)
Definition DistanceRates_ground (op : options) : comp := {|
  c_ins := [Dynamic_Mission_FLIGHT_PATH_ANGLE;
            Dynamic_Mission_VELOCITY];
  c_outs := [Dynamic_Mission_DISTANCE_RATE;
             Dynamic_Mission_ALTITUDE_RATE];
  c_decl := [(Dynamic_Mission_DISTANCE_RATE, Dynamic_Mission_FLIGHT_PATH_ANGLE, 0);
             (Dynamic_Mission_DISTANCE_RATE, Dynamic_Mission_VELOCITY, 1);
             (Dynamic_Mission_ALTITUDE_RATE, Dynamic_Mission_FLIGHT_PATH_ANGLE, 0);
             (Dynamic_Mission_ALTITUDE_RATE, Dynamic_Mission_VELOCITY, 0)];
  c_run := DistanceRates_ground_compute op; c_jac := DistanceRates_ground_partials op |}.

(** The inputs that are scalars, shared by all nodes. *)
Definition DistanceRates_ground_shared : list string := [].

(** SumForces.compute, /repo/aviary/mission/energy_state/ode/takeoff_eom.py L632-682 with climbing = True *)
Definition SumForces_climbing_compute (op : options) (e : env) : list (string * R) :=
  let grav_metric := on op Mission_GRAVITY in  (* L636 *)
  let t_inc := on op Mission_Takeoff_THRUST_INCIDENCE in  (* L637 *)
  let alpha0 := on op Mission_Takeoff_ANGLE_OF_ATTACK_RUNWAY in  (* L638 *)
  let mass := e Dynamic_Vehicle_MASS in  (* L640 *)
  let lift := e Dynamic_Vehicle_LIFT in  (* L641 *)
  let thrust := e Dynamic_Vehicle_Propulsion_THRUST_TOTAL in  (* L642 *)
  let drag := e Dynamic_Vehicle_DRAG in  (* L643 *)
  let weight := mass * grav_metric in  (* L645 *)
  let alpha := e Dynamic_Vehicle_ANGLE_OF_ATTACK in  (* L653 *)
  let gamma := e Dynamic_Mission_FLIGHT_PATH_ANGLE in  (* L654 *)
  let angle := alpha - alpha0 + t_inc + gamma in  (* L656 *)
  let t_h := thrust * cos angle in  (* L658 *)
  let t_v := thrust * sin angle in  (* L659 *)
  let c_gamma := cos gamma in  (* L661 *)
  let s_gamma := sin gamma in  (* L662 *)
  let f_h := t_h - drag * c_gamma - lift * s_gamma in  (* L664 *)
  let f_v := t_v - drag * s_gamma + lift * c_gamma - weight in  (* L666 *)
  let o_forces_vertical := f_v in  (* L668 *)
  let o_forces_horizontal := f_h in  (* L682 *)
  [(v_forces_vertical, o_forces_vertical);
   (v_forces_horizontal, o_forces_horizontal)].

(** SumForces.compute_partials, /repo/aviary/mission/energy_state/ode/takeoff_eom.py L684-728 *)
Definition SumForces_climbing_partials (op : options) (e : env) : list (string * string * R) :=
  let t_inc := on op Mission_Takeoff_THRUST_INCIDENCE in  (* L688 *)
  let alpha0 := on op Mission_Takeoff_ANGLE_OF_ATTACK_RUNWAY in  (* L689 *)
  let lift := e Dynamic_Vehicle_LIFT in  (* L695 *)
  let thrust := e Dynamic_Vehicle_Propulsion_THRUST_TOTAL in  (* L696 *)
  let drag := e Dynamic_Vehicle_DRAG in  (* L697 *)
  let alpha := e Dynamic_Vehicle_ANGLE_OF_ATTACK in  (* L699 *)
  let gamma := e Dynamic_Mission_FLIGHT_PATH_ANGLE in  (* L700 *)
  let angle := alpha - alpha0 + t_inc + gamma in  (* L702 *)
  let c_angle := cos angle in  (* L704 *)
  let s_angle := sin angle in  (* L705 *)
  let c_gamma := cos gamma in  (* L707 *)
  let s_gamma := sin gamma in  (* L708 *)
  let d_forces_horizontal__Vehicle_Propulsion_THRUST_TOTAL := c_angle in  (* L710 *)
  let d_forces_vertical__Vehicle_Propulsion_THRUST_TOTAL := s_angle in  (* L711 *)
  let d_forces_horizontal__Vehicle_LIFT := - s_gamma in  (* L713 *)
  let d_forces_vertical__Vehicle_LIFT := c_gamma in  (* L714 *)
  let d_forces_horizontal__Vehicle_DRAG := - c_gamma in  (* L716 *)
  let d_forces_vertical__Vehicle_DRAG := - s_gamma in  (* L717 *)
  let d_forces_horizontal__Vehicle_ANGLE_OF_ATTACK := - thrust * s_angle in  (* L719 *)
  let d_forces_vertical__Vehicle_ANGLE_OF_ATTACK := thrust * c_angle in  (* L720 *)
  let d_forces_horizontal__Mission_FLIGHT_PATH_ANGLE := - thrust * s_angle + drag * s_gamma - lift * c_gamma in  (* L722 *)
  let d_forces_vertical__Mission_FLIGHT_PATH_ANGLE := thrust * c_angle - drag * c_gamma - lift * s_gamma in  (* L726 *)
  [(v_forces_horizontal, Dynamic_Vehicle_Propulsion_THRUST_TOTAL,
      d_forces_horizontal__Vehicle_Propulsion_THRUST_TOTAL);
   (v_forces_vertical, Dynamic_Vehicle_Propulsion_THRUST_TOTAL, d_forces_vertical__Vehicle_Propulsion_THRUST_TOTAL);
   (v_forces_horizontal, Dynamic_Vehicle_LIFT, d_forces_horizontal__Vehicle_LIFT);
   (v_forces_vertical, Dynamic_Vehicle_LIFT, d_forces_vertical__Vehicle_LIFT);
   (v_forces_horizontal, Dynamic_Vehicle_DRAG, d_forces_horizontal__Vehicle_DRAG);
   (v_forces_vertical, Dynamic_Vehicle_DRAG, d_forces_vertical__Vehicle_DRAG);
   (v_forces_horizontal, Dynamic_Vehicle_ANGLE_OF_ATTACK, d_forces_horizontal__Vehicle_ANGLE_OF_ATTACK);
   (v_forces_vertical, Dynamic_Vehicle_ANGLE_OF_ATTACK, d_forces_vertical__Vehicle_ANGLE_OF_ATTACK);
   (v_forces_horizontal, Dynamic_Mission_FLIGHT_PATH_ANGLE, d_forces_horizontal__Mission_FLIGHT_PATH_ANGLE);
   (v_forces_vertical, Dynamic_Mission_FLIGHT_PATH_ANGLE, d_forces_vertical__Mission_FLIGHT_PATH_ANGLE)].

(** Inputs, outputs and declared partials: /repo/aviary/mission/energy_state/ode/takeoff_eom.py L527-630 *)
Definition SumForces_climbing (op : options) : comp := {|
  c_ins := [Dynamic_Vehicle_MASS;
            Dynamic_Vehicle_LIFT;
            Dynamic_Vehicle_Propulsion_THRUST_TOTAL;
            Dynamic_Vehicle_DRAG;
            Dynamic_Vehicle_ANGLE_OF_ATTACK;
            Dynamic_Mission_FLIGHT_PATH_ANGLE];
  c_outs := [v_forces_horizontal;
             v_forces_vertical];
  c_decl := [(v_forces_horizontal, Dynamic_Vehicle_MASS, 0);
             (v_forces_vertical, Dynamic_Vehicle_MASS, - (on op Mission_GRAVITY));
             (v_forces_horizontal, Dynamic_Vehicle_Propulsion_THRUST_TOTAL, 0);
             (v_forces_horizontal, Dynamic_Vehicle_LIFT, 0);
             (v_forces_horizontal, Dynamic_Vehicle_DRAG, 0);
             (v_forces_horizontal, Dynamic_Vehicle_ANGLE_OF_ATTACK, 0);
             (v_forces_horizontal, Dynamic_Mission_FLIGHT_PATH_ANGLE, 0);
             (v_forces_vertical, Dynamic_Vehicle_Propulsion_THRUST_TOTAL, 0);
             (v_forces_vertical, Dynamic_Vehicle_LIFT, 0);
             (v_forces_vertical, Dynamic_Vehicle_DRAG, 0);
             (v_forces_vertical, Dynamic_Vehicle_ANGLE_OF_ATTACK, 0);
             (v_forces_vertical, Dynamic_Mission_FLIGHT_PATH_ANGLE, 0)];
  c_run := SumForces_climbing_compute op; c_jac := SumForces_climbing_partials op |}.

(** The inputs that are scalars, shared by all nodes. *)
Definition SumForces_climbing_shared : list string := [].

(** SumForces.compute, /repo/aviary/mission/energy_state/ode/takeoff_eom.py L632-682 with climbing = False *)
Definition SumForces_ground_compute (op : options) (e : env) : list (string * R) :=
  let grav_metric := on op Mission_GRAVITY in  (* L636 *)
  let t_inc := on op Mission_Takeoff_THRUST_INCIDENCE in  (* L637 *)
  let alpha0 := on op Mission_Takeoff_ANGLE_OF_ATTACK_RUNWAY in  (* L638 *)
  let mass := e Dynamic_Vehicle_MASS in  (* L640 *)
  let lift := e Dynamic_Vehicle_LIFT in  (* L641 *)
  let thrust := e Dynamic_Vehicle_Propulsion_THRUST_TOTAL in  (* L642 *)
  let drag := e Dynamic_Vehicle_DRAG in  (* L643 *)
  let weight := mass * grav_metric in  (* L645 *)
  let mu := on op v_friction_coefficient in  (* L675 *)
  let t_h := thrust * cos t_inc in  (* L677 *)
  let t_v := thrust * sin t_inc in  (* L678 *)
  let f_h := t_h - drag - (weight - (lift + t_v)) * mu in  (* L680 *)
  let o_forces_horizontal := f_h in  (* L682 *)
  [(v_forces_horizontal, o_forces_horizontal)].

(** SumForces.compute_partials, /repo/aviary/mission/energy_state/ode/takeoff_eom.py L684-728 *)
Definition SumForces_ground_partials (op : options) (e : env) : list (string * string * R) :=
  let t_inc := on op Mission_Takeoff_THRUST_INCIDENCE in  (* L688 *)
  let alpha0 := on op Mission_Takeoff_ANGLE_OF_ATTACK_RUNWAY in  (* L689 *)
  [].

(** Inputs, outputs and declared partials: /repo/aviary/mission/energy_state/ode/takeoff_eom.py L527-630 *)
Definition SumForces_ground (op : options) : comp := {|
  c_ins := [Dynamic_Vehicle_MASS;
            Dynamic_Vehicle_LIFT;
            Dynamic_Vehicle_Propulsion_THRUST_TOTAL;
            Dynamic_Vehicle_DRAG;
            Dynamic_Vehicle_ANGLE_OF_ATTACK;
            Dynamic_Mission_FLIGHT_PATH_ANGLE];
  c_outs := [v_forces_horizontal;
             v_forces_vertical];
  c_decl := [(v_forces_horizontal, Dynamic_Vehicle_MASS, (- (on op Mission_GRAVITY) * (on op
      v_friction_coefficient)));
             (v_forces_horizontal, Dynamic_Vehicle_LIFT, (on op v_friction_coefficient));
             (v_forces_horizontal, Dynamic_Vehicle_Propulsion_THRUST_TOTAL, (cos (on op
                 Mission_Takeoff_THRUST_INCIDENCE) + sin (on op Mission_Takeoff_THRUST_INCIDENCE) * (on op
                 v_friction_coefficient)));
             (v_forces_horizontal, Dynamic_Vehicle_DRAG, - 1);
             (v_forces_horizontal, Dynamic_Vehicle_ANGLE_OF_ATTACK, 0);
             (v_forces_horizontal, Dynamic_Mission_FLIGHT_PATH_ANGLE, 0);
             (v_forces_vertical, Dynamic_Vehicle_MASS, 0);
             (v_forces_vertical, Dynamic_Vehicle_LIFT, 0);
             (v_forces_vertical, Dynamic_Vehicle_Propulsion_THRUST_TOTAL, 0);
             (v_forces_vertical, Dynamic_Vehicle_DRAG, 0);
             (v_forces_vertical, Dynamic_Vehicle_ANGLE_OF_ATTACK, 0);
             (v_forces_vertical, Dynamic_Mission_FLIGHT_PATH_ANGLE, 0)];
  c_run := SumForces_ground_compute op; c_jac := SumForces_ground_partials op |}.

(** The inputs that are scalars, shared by all nodes. *)
Definition SumForces_ground_shared : list string := [].

(** Accelerations.compute, /repo/aviary/mission/energy_state/ode/takeoff_eom.py L339-348 *)
Definition Accelerations_compute (op : options) (e : env) : list (string * R) :=
  let mass := e Dynamic_Vehicle_MASS in  (* L340 *)
  let f_h := e v_forces_horizontal in  (* L341 *)
  let f_v := e v_forces_vertical in  (* L342 *)
  let a_h := f_h / mass in  (* L344 *)
  let o_acceleration_horizontal := a_h in  (* L345 *)
  let a_v := f_v / mass in  (* L347 *)
  let o_acceleration_vertical := a_v in  (* L348 *)
  [(v_acceleration_horizontal, o_acceleration_horizontal);
   (v_acceleration_vertical, o_acceleration_vertical)].

(** Accelerations.compute_partials, /repo/aviary/mission/energy_state/ode/takeoff_eom.py L350-362 *)
Definition Accelerations_partials (op : options) (e : env) : list (string * string * R) :=
  let mass := e Dynamic_Vehicle_MASS in  (* L351 *)
  let f_h := e v_forces_horizontal in  (* L352 *)
  let f_v := e v_forces_vertical in  (* L353 *)
  let m2 := mass * mass in  (* L355 *)
  let d_acceleration_horizontal__Vehicle_MASS := - f_h / m2 in  (* L357 *)
  let d_acceleration_vertical__Vehicle_MASS := - f_v / m2 in  (* L358 *)
  let d_acceleration_horizontal__forces_horizontal := 1 / mass in  (* L360 *)
  let d_acceleration_vertical__forces_vertical := 1 / mass in  (* L362 *)
  [(v_acceleration_horizontal, Dynamic_Vehicle_MASS, d_acceleration_horizontal__Vehicle_MASS);
   (v_acceleration_vertical, Dynamic_Vehicle_MASS, d_acceleration_vertical__Vehicle_MASS);
   (v_acceleration_horizontal, v_forces_horizontal, d_acceleration_horizontal__forces_horizontal);
   (v_acceleration_vertical, v_forces_vertical, d_acceleration_vertical__forces_vertical)].

(** Inputs, outputs and declared partials: /repo/aviary/mission/energy_state/ode/takeoff_eom.py L275-337 *)
Definition Accelerations (op : options) : comp := {|
  c_ins := [Dynamic_Vehicle_MASS;
            v_forces_horizontal;
            v_forces_vertical];
  c_outs := [v_acceleration_horizontal;
             v_acceleration_vertical];
  c_decl := [(v_acceleration_horizontal, Dynamic_Vehicle_MASS, 0);
             (v_acceleration_vertical, Dynamic_Vehicle_MASS, 0);
             (v_acceleration_horizontal, v_forces_horizontal, 0);
             (v_acceleration_vertical, v_forces_horizontal, 0);
             (v_acceleration_horizontal, v_forces_vertical, 0);
             (v_acceleration_vertical, v_forces_vertical, 0)];
  c_run := Accelerations_compute op; c_jac := Accelerations_partials op |}.

(** The inputs that are scalars, shared by all nodes. *)
Definition Accelerations_shared : list string := [].

(** VelocityRate.compute, /repo/aviary/mission/energy_state/ode/takeoff_eom.py L399-406 *)
Definition VelocityRate_compute (op : options) (e : env) : list (string * R) :=
  let a_h := e v_acceleration_horizontal in  (* L400 *)
  let a_v := e v_acceleration_vertical in  (* L401 *)
  let v_h := e Dynamic_Mission_DISTANCE_RATE in  (* L402 *)
  let v_v := e Dynamic_Mission_ALTITUDE_RATE in  (* L403 *)
  let v_mag := sqrt (v_h ^ 2 + v_v ^ 2) in  (* L405 *)
  let o_Mission_VELOCITY_RATE := (a_h * v_h + a_v * v_v) / v_mag in  (* L406 *)
  [(Dynamic_Mission_VELOCITY_RATE, o_Mission_VELOCITY_RATE)].

(** VelocityRate.compute_partials, /repo/aviary/mission/energy_state/ode/takeoff_eom.py L408-427 *)
Definition VelocityRate_partials (op : options) (e : env) : list (string * string * R) :=
  let a_h := e v_acceleration_horizontal in  (* L409 *)
  let a_v := e v_acceleration_vertical in  (* L410 *)
  let v_h := e Dynamic_Mission_DISTANCE_RATE in  (* L411 *)
  let v_v := e Dynamic_Mission_ALTITUDE_RATE in  (* L412 *)
  let num := a_h * v_h + a_v * v_v in  (* L414 *)
  let fact := v_h ^ 2 + v_v ^ 2 in  (* L415 *)
  let den := sqrt fact in  (* L416 *)
  let d_Mission_VELOCITY_RATE__acceleration_horizontal := v_h / den in  (* L418 *)
  let d_Mission_VELOCITY_RATE__acceleration_vertical := v_v / den in  (* L419 *)
  let d_Mission_VELOCITY_RATE__Mission_DISTANCE_RATE := a_h / den - 5 / 10 * num / fact ** (3 / 2) * 2 * v_h in  (* L421 *)
  let d_Mission_VELOCITY_RATE__Mission_ALTITUDE_RATE := a_v / den - 5 / 10 * num / fact ** (3 / 2) * 2 * v_v in  (* L425 *)
  [(Dynamic_Mission_VELOCITY_RATE, v_acceleration_horizontal, d_Mission_VELOCITY_RATE__acceleration_horizontal);
   (Dynamic_Mission_VELOCITY_RATE, v_acceleration_vertical, d_Mission_VELOCITY_RATE__acceleration_vertical);
   (Dynamic_Mission_VELOCITY_RATE, Dynamic_Mission_DISTANCE_RATE, d_Mission_VELOCITY_RATE__Mission_DISTANCE_RATE);
   (Dynamic_Mission_VELOCITY_RATE, Dynamic_Mission_ALTITUDE_RATE, d_Mission_VELOCITY_RATE__Mission_ALTITUDE_RATE)].

(** Inputs, outputs and declared partials: /repo/aviary/mission/energy_state/ode/takeoff_eom.py L373-397 *)
Definition VelocityRate (op : options) : comp := {|
  c_ins := [v_acceleration_horizontal;
            v_acceleration_vertical;
            Dynamic_Mission_DISTANCE_RATE;
            Dynamic_Mission_ALTITUDE_RATE];
  c_outs := [Dynamic_Mission_VELOCITY_RATE];
  c_decl := [(Dynamic_Mission_VELOCITY_RATE, v_acceleration_horizontal, 0);
             (Dynamic_Mission_VELOCITY_RATE, v_acceleration_vertical, 0);
             (Dynamic_Mission_VELOCITY_RATE, Dynamic_Mission_DISTANCE_RATE, 0);
             (Dynamic_Mission_VELOCITY_RATE, Dynamic_Mission_ALTITUDE_RATE, 0)];
  c_run := VelocityRate_compute op; c_jac := VelocityRate_partials op |}.

(** The inputs that are scalars, shared by all nodes. *)
Definition VelocityRate_shared : list string := [].

(** FlightPathAngleRate.compute, /repo/aviary/mission/energy_state/ode/takeoff_eom.py L469-477 *)
Definition FlightPathAngleRate_compute (op : options) (e : env) : list (string * R) :=
  let v_h := e Dynamic_Mission_DISTANCE_RATE in  (* L470 *)
  let v_v := e Dynamic_Mission_ALTITUDE_RATE in  (* L471 *)
  let a_h := e v_acceleration_horizontal in  (* L472 *)
  let a_v := e v_acceleration_vertical in  (* L473 *)
  let x := (a_v * v_h - a_h * v_v) / (v_h ^ 2 + v_v ^ 2) in  (* L475 *)
  let o_Mission_FLIGHT_PATH_ANGLE_RATE := x in  (* L477 *)
  [(Dynamic_Mission_FLIGHT_PATH_ANGLE_RATE, o_Mission_FLIGHT_PATH_ANGLE_RATE)].

(** FlightPathAngleRate.compute_partials, /repo/aviary/mission/energy_state/ode/takeoff_eom.py L479-499 *)
Definition FlightPathAngleRate_partials (op : options) (e : env) : list (string * string * R) :=
  let v_h := e Dynamic_Mission_DISTANCE_RATE in  (* L480 *)
  let v_v := e Dynamic_Mission_ALTITUDE_RATE in  (* L481 *)
  let a_h := e v_acceleration_horizontal in  (* L482 *)
  let a_v := e v_acceleration_vertical in  (* L483 *)
  let num := a_v * v_h - a_h * v_v in  (* L485 *)
  let den := v_h ^ 2 + v_v ^ 2 in  (* L486 *)
  let df_dvh := a_v / den - num / den ^ 2 * 2 * v_h in  (* L488 *)
  let df_dvv := - a_h / den - num / den ^ 2 * 2 * v_v in  (* L490 *)
  let df_dah := - v_v / den in  (* L492 *)
  let df_dav := v_h / den in  (* L494 *)
  let d_Mission_FLIGHT_PATH_ANGLE_RATE__Mission_DISTANCE_RATE := df_dvh in  (* L496 *)
  let d_Mission_FLIGHT_PATH_ANGLE_RATE__Mission_ALTITUDE_RATE := df_dvv in  (* L497 *)
  let d_Mission_FLIGHT_PATH_ANGLE_RATE__acceleration_horizontal := df_dah in  (* L498 *)
  let d_Mission_FLIGHT_PATH_ANGLE_RATE__acceleration_vertical := df_dav in  (* L499 *)
  [(Dynamic_Mission_FLIGHT_PATH_ANGLE_RATE, Dynamic_Mission_DISTANCE_RATE,
      d_Mission_FLIGHT_PATH_ANGLE_RATE__Mission_DISTANCE_RATE);
   (Dynamic_Mission_FLIGHT_PATH_ANGLE_RATE, Dynamic_Mission_ALTITUDE_RATE,
       d_Mission_FLIGHT_PATH_ANGLE_RATE__Mission_ALTITUDE_RATE);
   (Dynamic_Mission_FLIGHT_PATH_ANGLE_RATE, v_acceleration_horizontal,
       d_Mission_FLIGHT_PATH_ANGLE_RATE__acceleration_horizontal);
   (Dynamic_Mission_FLIGHT_PATH_ANGLE_RATE, v_acceleration_vertical,
       d_Mission_FLIGHT_PATH_ANGLE_RATE__acceleration_vertical)].

(** Inputs, outputs and declared partials: /repo/aviary/mission/energy_state/ode/takeoff_eom.py L438-467 *)
Definition FlightPathAngleRate (op : options) : comp := {|
  c_ins := [Dynamic_Mission_DISTANCE_RATE;
            Dynamic_Mission_ALTITUDE_RATE;
            v_acceleration_horizontal;
            v_acceleration_vertical];
  c_outs := [Dynamic_Mission_FLIGHT_PATH_ANGLE_RATE];
  c_decl := [(Dynamic_Mission_FLIGHT_PATH_ANGLE_RATE, Dynamic_Mission_DISTANCE_RATE, 0);
             (Dynamic_Mission_FLIGHT_PATH_ANGLE_RATE, Dynamic_Mission_ALTITUDE_RATE, 0);
             (Dynamic_Mission_FLIGHT_PATH_ANGLE_RATE, v_acceleration_horizontal, 0);
             (Dynamic_Mission_FLIGHT_PATH_ANGLE_RATE, v_acceleration_vertical, 0)];
  c_run := FlightPathAngleRate_compute op; c_jac := FlightPathAngleRate_partials op |}.

(** The inputs that are scalars, shared by all nodes. *)
Definition FlightPathAngleRate_shared : list string := [].

(** ClimbGradientForces.compute, /repo/aviary/mission/energy_state/ode/takeoff_eom.py L812-841 *)
Definition ClimbGradientForces_compute (op : options) (e : env) : list (string * R) :=
  let alpha0 := on op Mission_Takeoff_ANGLE_OF_ATTACK_RUNWAY in  (* L813 *)
  let t_inc := on op Mission_Takeoff_THRUST_INCIDENCE in  (* L814 *)
  let grav_metric := on op Mission_GRAVITY in  (* L815 *)
  let mass := e Dynamic_Vehicle_MASS in  (* L817 *)
  let lift := e Dynamic_Vehicle_LIFT in  (* L818 *)
  let thrust := e Dynamic_Vehicle_Propulsion_THRUST_TOTAL in  (* L819 *)
  let drag := e Dynamic_Vehicle_DRAG in  (* L820 *)
  let weight := mass * grav_metric in  (* L822 *)
  let alpha := e Dynamic_Vehicle_ANGLE_OF_ATTACK in  (* L824 *)
  let gamma := e Dynamic_Mission_FLIGHT_PATH_ANGLE in  (* L825 *)
  let angle := alpha - alpha0 + t_inc in  (* L827 *)
  let c_angle := cos angle in  (* L829 *)
  let s_angle := sin angle in  (* L830 *)
  let c_gamma := cos gamma in  (* L832 *)
  let s_gamma := sin gamma in  (* L833 *)
  let f_h := - drag - weight * s_gamma + thrust * c_angle in  (* L837 *)
  let o_climb_gradient_forces_horizontal := f_h in  (* L838 *)
  let f_v := lift - weight * c_gamma + thrust * s_angle in  (* L840 *)
  let o_climb_gradient_forces_vertical := f_v in  (* L841 *)
  [(v_climb_gradient_forces_horizontal, o_climb_gradient_forces_horizontal);
   (v_climb_gradient_forces_vertical, o_climb_gradient_forces_vertical)].

(** ClimbGradientForces.compute_partials, /repo/aviary/mission/energy_state/ode/takeoff_eom.py L843-877 *)
Definition ClimbGradientForces_partials (op : options) (e : env) : list (string * string * R) :=
  let alpha0 := on op Mission_Takeoff_ANGLE_OF_ATTACK_RUNWAY in  (* L844 *)
  let t_inc := on op Mission_Takeoff_THRUST_INCIDENCE in  (* L845 *)
  let grav_metric := on op Mission_GRAVITY in  (* L846 *)
  let mass := e Dynamic_Vehicle_MASS in  (* L848 *)
  let thrust := e Dynamic_Vehicle_Propulsion_THRUST_TOTAL in  (* L849 *)
  let weight := mass * grav_metric in  (* L851 *)
  let alpha := e Dynamic_Vehicle_ANGLE_OF_ATTACK in  (* L853 *)
  let gamma := e Dynamic_Mission_FLIGHT_PATH_ANGLE in  (* L854 *)
  let angle := alpha - alpha0 + t_inc in  (* L856 *)
  let c_angle := cos angle in  (* L858 *)
  let s_angle := sin angle in  (* L859 *)
  let c_gamma := cos gamma in  (* L861 *)
  let s_gamma := sin gamma in  (* L862 *)
  let d_climb_gradient_forces_horizontal__Vehicle_MASS := - grav_metric * s_gamma in  (* L867 *)
  let d_climb_gradient_forces_vertical__Vehicle_MASS := - grav_metric * c_gamma in  (* L868 *)
  let d_climb_gradient_forces_horizontal__Vehicle_Propulsion_THRUST_TOTAL := c_angle in  (* L870 *)
  let d_climb_gradient_forces_vertical__Vehicle_Propulsion_THRUST_TOTAL := s_angle in  (* L871 *)
  let d_climb_gradient_forces_horizontal__Vehicle_ANGLE_OF_ATTACK := - thrust * s_angle in  (* L873 *)
  let d_climb_gradient_forces_vertical__Vehicle_ANGLE_OF_ATTACK := thrust * c_angle in  (* L874 *)
  let d_climb_gradient_forces_horizontal__Mission_FLIGHT_PATH_ANGLE := - weight * c_gamma in  (* L876 *)
  let d_climb_gradient_forces_vertical__Mission_FLIGHT_PATH_ANGLE := weight * s_gamma in  (* L877 *)
  [(v_climb_gradient_forces_horizontal, Dynamic_Vehicle_MASS, d_climb_gradient_forces_horizontal__Vehicle_MASS);
   (v_climb_gradient_forces_vertical, Dynamic_Vehicle_MASS, d_climb_gradient_forces_vertical__Vehicle_MASS);
   (v_climb_gradient_forces_horizontal, Dynamic_Vehicle_Propulsion_THRUST_TOTAL,
       d_climb_gradient_forces_horizontal__Vehicle_Propulsion_THRUST_TOTAL);
   (v_climb_gradient_forces_vertical, Dynamic_Vehicle_Propulsion_THRUST_TOTAL,
       d_climb_gradient_forces_vertical__Vehicle_Propulsion_THRUST_TOTAL);
   (v_climb_gradient_forces_horizontal, Dynamic_Vehicle_ANGLE_OF_ATTACK,
       d_climb_gradient_forces_horizontal__Vehicle_ANGLE_OF_ATTACK);
   (v_climb_gradient_forces_vertical, Dynamic_Vehicle_ANGLE_OF_ATTACK,
       d_climb_gradient_forces_vertical__Vehicle_ANGLE_OF_ATTACK);
   (v_climb_gradient_forces_horizontal, Dynamic_Mission_FLIGHT_PATH_ANGLE,
       d_climb_gradient_forces_horizontal__Mission_FLIGHT_PATH_ANGLE);
   (v_climb_gradient_forces_vertical, Dynamic_Mission_FLIGHT_PATH_ANGLE,
       d_climb_gradient_forces_vertical__Mission_FLIGHT_PATH_ANGLE)].

(** Inputs, outputs and declared partials: /repo/aviary/mission/energy_state/ode/takeoff_eom.py L744-810 *)
Definition ClimbGradientForces (op : options) : comp := {|
  c_ins := [Dynamic_Vehicle_MASS;
            Dynamic_Vehicle_LIFT;
            Dynamic_Vehicle_Propulsion_THRUST_TOTAL;
            Dynamic_Vehicle_DRAG;
            Dynamic_Vehicle_ANGLE_OF_ATTACK;
            Dynamic_Mission_FLIGHT_PATH_ANGLE];
  c_outs := [v_climb_gradient_forces_horizontal;
             v_climb_gradient_forces_vertical];
  c_decl := [(v_climb_gradient_forces_horizontal, Dynamic_Vehicle_MASS, 0);
             (v_climb_gradient_forces_horizontal, Dynamic_Vehicle_Propulsion_THRUST_TOTAL, 0);
             (v_climb_gradient_forces_horizontal, Dynamic_Vehicle_ANGLE_OF_ATTACK, 0);
             (v_climb_gradient_forces_horizontal, Dynamic_Mission_FLIGHT_PATH_ANGLE, 0);
             (v_climb_gradient_forces_vertical, Dynamic_Vehicle_MASS, 0);
             (v_climb_gradient_forces_vertical, Dynamic_Vehicle_Propulsion_THRUST_TOTAL, 0);
             (v_climb_gradient_forces_vertical, Dynamic_Vehicle_ANGLE_OF_ATTACK, 0);
             (v_climb_gradient_forces_vertical, Dynamic_Mission_FLIGHT_PATH_ANGLE, 0);
             (v_climb_gradient_forces_horizontal, Dynamic_Vehicle_DRAG, - 1);
             (v_climb_gradient_forces_vertical, Dynamic_Vehicle_DRAG, 0);
             (v_climb_gradient_forces_horizontal, Dynamic_Vehicle_LIFT, 0);
             (v_climb_gradient_forces_vertical, Dynamic_Vehicle_LIFT, 1)];
  c_run := ClimbGradientForces_compute op; c_jac := ClimbGradientForces_partials op |}.

(** The inputs that are scalars, shared by all nodes. *)
Definition ClimbGradientForces_shared : list string := [].

(** AltitudeRate.compute, /repo/aviary/mission/ode/altitude_rate.py L60-68 *)
Definition AltitudeRate_compute (op : options) (e : env) : list (string * R) :=
  let grav_metric := on op Mission_GRAVITY in  (* L61 *)
  let specific_power := e Dynamic_Mission_SPECIFIC_ENERGY_RATE in  (* L62 *)
  let acceleration := e Dynamic_Mission_VELOCITY_RATE in  (* L63 *)
  let velocity := e Dynamic_Mission_VELOCITY in  (* L64 *)
  let o_Mission_ALTITUDE_RATE := specific_power - velocity * acceleration / grav_metric in  (* L66 *)
  [(Dynamic_Mission_ALTITUDE_RATE, o_Mission_ALTITUDE_RATE)].

(** AltitudeRate.compute_partials, /repo/aviary/mission/ode/altitude_rate.py L70-76 *)
Definition AltitudeRate_partials (op : options) (e : env) : list (string * string * R) :=
  let grav_metric := on op Mission_GRAVITY in  (* L71 *)
  let acceleration := e Dynamic_Mission_VELOCITY_RATE in  (* L72 *)
  let velocity := e Dynamic_Mission_VELOCITY in  (* L73 *)
  let d_Mission_ALTITUDE_RATE__Mission_VELOCITY_RATE := - velocity / grav_metric in  (* L75 *)
  let d_Mission_ALTITUDE_RATE__Mission_VELOCITY := - acceleration / grav_metric in  (* L76 *)
  [(Dynamic_Mission_ALTITUDE_RATE, Dynamic_Mission_VELOCITY_RATE, d_Mission_ALTITUDE_RATE__Mission_VELOCITY_RATE);
   (Dynamic_Mission_ALTITUDE_RATE, Dynamic_Mission_VELOCITY, d_Mission_ALTITUDE_RATE__Mission_VELOCITY)].

(** Inputs, outputs and declared partials: /repo/aviary/mission/ode/altitude_rate.py L19-58 *)
Definition AltitudeRate (op : options) : comp := {|
  c_ins := [Dynamic_Mission_SPECIFIC_ENERGY_RATE;
            Dynamic_Mission_VELOCITY_RATE;
            Dynamic_Mission_VELOCITY];
  c_outs := [Dynamic_Mission_ALTITUDE_RATE];
  c_decl := [(Dynamic_Mission_ALTITUDE_RATE, Dynamic_Mission_SPECIFIC_ENERGY_RATE, 1);
             (Dynamic_Mission_ALTITUDE_RATE, Dynamic_Mission_VELOCITY_RATE, 1);
             (Dynamic_Mission_ALTITUDE_RATE, Dynamic_Mission_VELOCITY, 1)];
  c_run := AltitudeRate_compute op; c_jac := AltitudeRate_partials op |}.

(** The inputs that are scalars, shared by all nodes. *)
Definition AltitudeRate_shared : list string := [].

(** SpecificEnergyRate.compute, /repo/aviary/mission/ode/specific_energy_rate.py L60-67 *)
Definition SpecificEnergyRate_compute (op : options) (e : env) : list (string * R) :=
  let grav_metric := on op Mission_GRAVITY in  (* L61 *)
  let velocity := e Dynamic_Mission_VELOCITY in  (* L63 *)
  let thrust := e Dynamic_Vehicle_Propulsion_THRUST_TOTAL in  (* L64 *)
  let drag := e Dynamic_Vehicle_DRAG in  (* L65 *)
  let weight := e Dynamic_Vehicle_MASS * grav_metric in  (* L66 *)
  let o_Mission_SPECIFIC_ENERGY_RATE := velocity * (thrust - drag) / weight in  (* L67 *)
  [(Dynamic_Mission_SPECIFIC_ENERGY_RATE, o_Mission_SPECIFIC_ENERGY_RATE)].

(** SpecificEnergyRate.compute_partials, /repo/aviary/mission/ode/specific_energy_rate.py L69-85 *)
Definition SpecificEnergyRate_partials (op : options) (e : env) : list (string * string * R) :=
  let grav_metric := on op Mission_GRAVITY in  (* L70 *)
  let velocity := e Dynamic_Mission_VELOCITY in  (* L72 *)
  let thrust := e Dynamic_Vehicle_Propulsion_THRUST_TOTAL in  (* L73 *)
  let drag := e Dynamic_Vehicle_DRAG in  (* L74 *)
  let weight := e Dynamic_Vehicle_MASS * grav_metric in  (* L75 *)
  let d_Mission_SPECIFIC_ENERGY_RATE__Mission_VELOCITY := (thrust - drag) / weight in  (* L77 *)
  let d_Mission_SPECIFIC_ENERGY_RATE__Vehicle_Propulsion_THRUST_TOTAL := velocity / weight in  (* L78 *)
  let d_Mission_SPECIFIC_ENERGY_RATE__Vehicle_DRAG := - velocity / weight in  (* L82 *)
  let d_Mission_SPECIFIC_ENERGY_RATE__Vehicle_MASS := - grav_metric * velocity * (thrust - drag) / weight ^ 2 in  (* L83 *)
  [(Dynamic_Mission_SPECIFIC_ENERGY_RATE, Dynamic_Mission_VELOCITY, d_Mission_SPECIFIC_ENERGY_RATE__Mission_VELOCITY);
   (Dynamic_Mission_SPECIFIC_ENERGY_RATE, Dynamic_Vehicle_Propulsion_THRUST_TOTAL,
       d_Mission_SPECIFIC_ENERGY_RATE__Vehicle_Propulsion_THRUST_TOTAL);
   (Dynamic_Mission_SPECIFIC_ENERGY_RATE, Dynamic_Vehicle_DRAG, d_Mission_SPECIFIC_ENERGY_RATE__Vehicle_DRAG);
   (Dynamic_Mission_SPECIFIC_ENERGY_RATE, Dynamic_Vehicle_MASS, d_Mission_SPECIFIC_ENERGY_RATE__Vehicle_MASS)].

(** Inputs, outputs and declared partials: /repo/aviary/mission/ode/specific_energy_rate.py L19-58 *)
Definition SpecificEnergyRate (op : options) : comp := {|
  c_ins := [Dynamic_Mission_VELOCITY;
            Dynamic_Vehicle_MASS;
            Dynamic_Vehicle_Propulsion_THRUST_TOTAL;
            Dynamic_Vehicle_DRAG];
  c_outs := [Dynamic_Mission_SPECIFIC_ENERGY_RATE];
  c_decl := [(Dynamic_Mission_SPECIFIC_ENERGY_RATE, Dynamic_Mission_VELOCITY, 0);
             (Dynamic_Mission_SPECIFIC_ENERGY_RATE, Dynamic_Vehicle_MASS, 0);
             (Dynamic_Mission_SPECIFIC_ENERGY_RATE, Dynamic_Vehicle_Propulsion_THRUST_TOTAL, 0);
             (Dynamic_Mission_SPECIFIC_ENERGY_RATE, Dynamic_Vehicle_DRAG, 0)];
  c_run := SpecificEnergyRate_compute op; c_jac := SpecificEnergyRate_partials op |}.

(** The inputs that are scalars, shared by all nodes. *)
Definition SpecificEnergyRate_shared : list string := [].
