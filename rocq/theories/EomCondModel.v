(** Flight conditions: /repo/aviary/subsystems/atmosphere/flight_conditions.py and
    /repo/aviary/mission/solved_two_dof/ode/unsteady_solved_flight_conditions.py.

    The options input_speed_type and ground_roll decide which variables exist, so each combination is its own
    component.

    Generated by tools/py2coq.py from the source text; see the header of that file for the rules.  Decimal
    literals are exact and numbers are real numbers. *)
From Coq Require Import Reals.
From Verif Require Import Base Comp.
Open Scope list_scope.
Open Scope string_scope.
Local Open Scope R_scope.

(** ** Variable names, /repo/aviary/variable_info/variables.py *)
Definition Dynamic_Atmosphere_DENSITY := "density".
Definition Dynamic_Atmosphere_DYNAMIC_PRESSURE := "dynamic_pressure".
Definition Dynamic_Atmosphere_MACH := "mach".
Definition Dynamic_Atmosphere_SPEED_OF_SOUND := "speed_of_sound".
Definition Dynamic_Mission_FLIGHT_PATH_ANGLE := "flight_path_angle".
Definition Dynamic_Mission_VELOCITY := "velocity".
Definition Mission_SEA_LEVEL_DENSITY := "mission:sea_level_density".
Definition v_EAS := "EAS".
Definition v_dEAS_dr := "dEAS_dr".
Definition v_dTAS_dr := "dTAS_dr".
Definition v_dTAS_dt_approx := "dTAS_dt_approx".
Definition v_dmach_dr := "dmach_dr".
Definition v_drho_dh := "drho_dh".
Definition v_dsos_dh := "dsos_dh".
Definition v_num_nodes := "num_nodes".


(** UnsteadySolvedFlightConditions.compute, /repo/aviary/mission/solved_two_dof/ode/unsteady_solved_flight_conditions.py L300-341 with ground_roll = False, input_speed_type = TAS *)
Definition UnsteadyConditions_TAS_flight_compute (op : options) (e : env) : list (string * R) :=
  let rho := e Dynamic_Atmosphere_DENSITY in  (* L304 *)
  let rho_sl := on op Mission_SEA_LEVEL_DENSITY in  (* L305 *)
  let sqrt_rho_rho_sl := sqrt (rho / rho_sl) in  (* L306 *)
  let sos := e Dynamic_Atmosphere_SPEED_OF_SOUND in  (* L307 *)
  let cgam := cos (e Dynamic_Mission_FLIGHT_PATH_ANGLE) in  (* L309 *)
  let sgam := sin (e Dynamic_Mission_FLIGHT_PATH_ANGLE) in  (* L310 *)
  let tas := e Dynamic_Mission_VELOCITY in  (* L313 *)
  let dtas_dr := e v_dTAS_dr in  (* L314 *)
  let o_Atmosphere_MACH := tas / sos in  (* L315 *)
  let o_EAS := tas * sqrt_rho_rho_sl in  (* L316 *)
  let o_dTAS_dt_approx := dtas_dr * tas * cgam in  (* L317 *)
  let o_Atmosphere_DYNAMIC_PRESSURE := 5 / 10 * rho * tas ^ 2 in  (* L341 *)
  [(Dynamic_Atmosphere_MACH, o_Atmosphere_MACH);
   (v_EAS, o_EAS);
   (v_dTAS_dt_approx, o_dTAS_dt_approx);
   (Dynamic_Atmosphere_DYNAMIC_PRESSURE, o_Atmosphere_DYNAMIC_PRESSURE)].

(** UnsteadySolvedFlightConditions.compute_partials, /repo/aviary/mission/solved_two_dof/ode/unsteady_solved_flight_conditions.py L343-429 *)
Definition UnsteadyConditions_TAS_flight_partials (op : options) (e : env) : list (string * string * R) :=
  let rho := e Dynamic_Atmosphere_DENSITY in  (* L347 *)
  let rho_sl := on op Mission_SEA_LEVEL_DENSITY in  (* L348 *)
  let sqrt_rho_rho_sl := sqrt (rho / rho_sl) in  (* L349 *)
  let dsqrt_rho_rho_sl_drho := 5 / 10 / sqrt_rho_rho_sl / rho_sl in  (* L350 *)
  let sos := e Dynamic_Atmosphere_SPEED_OF_SOUND in  (* L351 *)
  let cgam := cos (e Dynamic_Mission_FLIGHT_PATH_ANGLE) in  (* L353 *)
  let sgam := sin (e Dynamic_Mission_FLIGHT_PATH_ANGLE) in  (* L354 *)
  let TAS := e Dynamic_Mission_VELOCITY in  (* L357 *)
  let tas := e Dynamic_Mission_VELOCITY in  (* L359 *)
  let dTAS_dr := e v_dTAS_dr in  (* L360 *)
  let d_Atmosphere_DYNAMIC_PRESSURE__Mission_VELOCITY := rho * TAS in  (* L362 *)
  let d_Atmosphere_DYNAMIC_PRESSURE__Atmosphere_DENSITY := 5 / 10 * TAS ^ 2 in  (* L363 *)
  let d_Atmosphere_MACH__Mission_VELOCITY := 1 / sos in  (* L365 *)
  let d_Atmosphere_MACH__Atmosphere_SPEED_OF_SOUND := - TAS / sos ^ 2 in  (* L366 *)
  let d_EAS__Mission_VELOCITY := sqrt_rho_rho_sl in  (* L368 *)
  let d_EAS__Atmosphere_DENSITY := tas * dsqrt_rho_rho_sl_drho in  (* L369 *)
  let d_dTAS_dt_approx__dTAS_dr := tas * cgam in  (* L371 *)
  let d_dTAS_dt_approx__Mission_VELOCITY := dTAS_dr * cgam in  (* L372 *)
  let d_dTAS_dt_approx__Mission_FLIGHT_PATH_ANGLE := - dTAS_dr * tas * sgam in  (* L375 *)
  [(Dynamic_Atmosphere_DYNAMIC_PRESSURE, Dynamic_Mission_VELOCITY, d_Atmosphere_DYNAMIC_PRESSURE__Mission_VELOCITY);
   (Dynamic_Atmosphere_DYNAMIC_PRESSURE, Dynamic_Atmosphere_DENSITY,
       d_Atmosphere_DYNAMIC_PRESSURE__Atmosphere_DENSITY);
   (Dynamic_Atmosphere_MACH, Dynamic_Mission_VELOCITY, d_Atmosphere_MACH__Mission_VELOCITY);
   (Dynamic_Atmosphere_MACH, Dynamic_Atmosphere_SPEED_OF_SOUND, d_Atmosphere_MACH__Atmosphere_SPEED_OF_SOUND);
   (v_EAS, Dynamic_Mission_VELOCITY, d_EAS__Mission_VELOCITY);
   (v_EAS, Dynamic_Atmosphere_DENSITY, d_EAS__Atmosphere_DENSITY);
   (v_dTAS_dt_approx, v_dTAS_dr, d_dTAS_dt_approx__dTAS_dr);
   (v_dTAS_dt_approx, Dynamic_Mission_VELOCITY, d_dTAS_dt_approx__Mission_VELOCITY);
   (v_dTAS_dt_approx, Dynamic_Mission_FLIGHT_PATH_ANGLE, d_dTAS_dt_approx__Mission_FLIGHT_PATH_ANGLE)].

(** Inputs, outputs and declared partials: /repo/aviary/mission/solved_two_dof/ode/unsteady_solved_flight_conditions.py L63-298 *)
Definition UnsteadyConditions_TAS_flight (op : options) : comp := {|
  c_ins := [Dynamic_Atmosphere_DENSITY;
            Dynamic_Atmosphere_SPEED_OF_SOUND;
            Dynamic_Mission_FLIGHT_PATH_ANGLE;
            Dynamic_Mission_VELOCITY;
            v_dTAS_dr];
  c_outs := [Dynamic_Atmosphere_DYNAMIC_PRESSURE;
             v_dTAS_dt_approx;
             v_EAS;
             Dynamic_Atmosphere_MACH];
  c_decl := [(v_dTAS_dt_approx, Dynamic_Mission_FLIGHT_PATH_ANGLE, 0);
             (Dynamic_Atmosphere_DYNAMIC_PRESSURE, Dynamic_Atmosphere_DENSITY, 0);
             (Dynamic_Atmosphere_DYNAMIC_PRESSURE, Dynamic_Mission_VELOCITY, 0);
             (Dynamic_Atmosphere_MACH, Dynamic_Atmosphere_SPEED_OF_SOUND, 0);
             (Dynamic_Atmosphere_MACH, Dynamic_Mission_VELOCITY, 0);
             (v_EAS, Dynamic_Mission_VELOCITY, 0);
             (v_EAS, Dynamic_Atmosphere_DENSITY, 0);
             (v_dTAS_dt_approx, v_dTAS_dr, 0);
             (v_dTAS_dt_approx, Dynamic_Mission_VELOCITY, 0)];
  c_run := UnsteadyConditions_TAS_flight_compute op; c_jac := UnsteadyConditions_TAS_flight_partials op |}.

(** The inputs that are scalars, shared by all nodes. *)
Definition UnsteadyConditions_TAS_flight_shared : list string := [].

(** UnsteadySolvedFlightConditions.compute, /repo/aviary/mission/solved_two_dof/ode/unsteady_solved_flight_conditions.py L300-341 with ground_roll = True, input_speed_type = TAS *)
Definition UnsteadyConditions_TAS_ground_compute (op : options) (e : env) : list (string * R) :=
  let rho := e Dynamic_Atmosphere_DENSITY in  (* L304 *)
  let rho_sl := on op Mission_SEA_LEVEL_DENSITY in  (* L305 *)
  let sqrt_rho_rho_sl := sqrt (rho / rho_sl) in  (* L306 *)
  let sos := e Dynamic_Atmosphere_SPEED_OF_SOUND in  (* L307 *)
  let cgam := 1 in  (* L309 *)
  let sgam := 0 in  (* L310 *)
  let tas := e Dynamic_Mission_VELOCITY in  (* L313 *)
  let dtas_dr := e v_dTAS_dr in  (* L314 *)
  let o_Atmosphere_MACH := tas / sos in  (* L315 *)
  let o_EAS := tas * sqrt_rho_rho_sl in  (* L316 *)
  let o_dTAS_dt_approx := dtas_dr * tas * cgam in  (* L317 *)
  let o_Atmosphere_DYNAMIC_PRESSURE := 5 / 10 * rho * tas ^ 2 in  (* L341 *)
  [(Dynamic_Atmosphere_MACH, o_Atmosphere_MACH);
   (v_EAS, o_EAS);
   (v_dTAS_dt_approx, o_dTAS_dt_approx);
   (Dynamic_Atmosphere_DYNAMIC_PRESSURE, o_Atmosphere_DYNAMIC_PRESSURE)].

(** UnsteadySolvedFlightConditions.compute_partials, /repo/aviary/mission/solved_two_dof/ode/unsteady_solved_flight_conditions.py L343-429 *)
Definition UnsteadyConditions_TAS_ground_partials (op : options) (e : env) : list (string * string * R) :=
  let rho := e Dynamic_Atmosphere_DENSITY in  (* L347 *)
  let rho_sl := on op Mission_SEA_LEVEL_DENSITY in  (* L348 *)
  let sqrt_rho_rho_sl := sqrt (rho / rho_sl) in  (* L349 *)
  let dsqrt_rho_rho_sl_drho := 5 / 10 / sqrt_rho_rho_sl / rho_sl in  (* L350 *)
  let sos := e Dynamic_Atmosphere_SPEED_OF_SOUND in  (* L351 *)
  let cgam := 1 in  (* L353 *)
  let sgam := 0 in  (* L354 *)
  let TAS := e Dynamic_Mission_VELOCITY in  (* L357 *)
  let tas := e Dynamic_Mission_VELOCITY in  (* L359 *)
  let dTAS_dr := e v_dTAS_dr in  (* L360 *)
  let d_Atmosphere_DYNAMIC_PRESSURE__Mission_VELOCITY := rho * TAS in  (* L362 *)
  let d_Atmosphere_DYNAMIC_PRESSURE__Atmosphere_DENSITY := 5 / 10 * TAS ^ 2 in  (* L363 *)
  let d_Atmosphere_MACH__Mission_VELOCITY := 1 / sos in  (* L365 *)
  let d_Atmosphere_MACH__Atmosphere_SPEED_OF_SOUND := - TAS / sos ^ 2 in  (* L366 *)
  let d_EAS__Mission_VELOCITY := sqrt_rho_rho_sl in  (* L368 *)
  let d_EAS__Atmosphere_DENSITY := tas * dsqrt_rho_rho_sl_drho in  (* L369 *)
  let d_dTAS_dt_approx__dTAS_dr := tas * cgam in  (* L371 *)
  let d_dTAS_dt_approx__Mission_VELOCITY := dTAS_dr * cgam in  (* L372 *)
  [(Dynamic_Atmosphere_DYNAMIC_PRESSURE, Dynamic_Mission_VELOCITY, d_Atmosphere_DYNAMIC_PRESSURE__Mission_VELOCITY);
   (Dynamic_Atmosphere_DYNAMIC_PRESSURE, Dynamic_Atmosphere_DENSITY,
       d_Atmosphere_DYNAMIC_PRESSURE__Atmosphere_DENSITY);
   (Dynamic_Atmosphere_MACH, Dynamic_Mission_VELOCITY, d_Atmosphere_MACH__Mission_VELOCITY);
   (Dynamic_Atmosphere_MACH, Dynamic_Atmosphere_SPEED_OF_SOUND, d_Atmosphere_MACH__Atmosphere_SPEED_OF_SOUND);
   (v_EAS, Dynamic_Mission_VELOCITY, d_EAS__Mission_VELOCITY);
   (v_EAS, Dynamic_Atmosphere_DENSITY, d_EAS__Atmosphere_DENSITY);
   (v_dTAS_dt_approx, v_dTAS_dr, d_dTAS_dt_approx__dTAS_dr);
   (v_dTAS_dt_approx, Dynamic_Mission_VELOCITY, d_dTAS_dt_approx__Mission_VELOCITY)].

(** Inputs, outputs and declared partials: /repo/aviary/mission/solved_two_dof/ode/unsteady_solved_flight_conditions.py L63-298 *)
Definition UnsteadyConditions_TAS_ground (op : options) : comp := {|
  c_ins := [Dynamic_Atmosphere_DENSITY;
            Dynamic_Atmosphere_SPEED_OF_SOUND;
            Dynamic_Mission_VELOCITY;
            v_dTAS_dr];
  c_outs := [Dynamic_Atmosphere_DYNAMIC_PRESSURE;
             v_dTAS_dt_approx;
             v_EAS;
             Dynamic_Atmosphere_MACH];
  c_decl := [(Dynamic_Atmosphere_DYNAMIC_PRESSURE, Dynamic_Atmosphere_DENSITY, 0);
             (Dynamic_Atmosphere_DYNAMIC_PRESSURE, Dynamic_Mission_VELOCITY, 0);
             (Dynamic_Atmosphere_MACH, Dynamic_Atmosphere_SPEED_OF_SOUND, 0);
             (Dynamic_Atmosphere_MACH, Dynamic_Mission_VELOCITY, 0);
             (v_EAS, Dynamic_Mission_VELOCITY, 0);
             (v_EAS, Dynamic_Atmosphere_DENSITY, 0);
             (v_dTAS_dt_approx, v_dTAS_dr, 0);
             (v_dTAS_dt_approx, Dynamic_Mission_VELOCITY, 0)];
  c_run := UnsteadyConditions_TAS_ground_compute op; c_jac := UnsteadyConditions_TAS_ground_partials op |}.

(** The inputs that are scalars, shared by all nodes. *)
Definition UnsteadyConditions_TAS_ground_shared : list string := [].

(** FlightConditions.compute, /repo/aviary/subsystems/atmosphere/flight_conditions.py L177-200 with input_speed_type = TAS *)
Definition FlightConditions_TAS_compute (op : options) (e : env) : list (string * R) :=
  let rho_sea_level := on op Mission_SEA_LEVEL_DENSITY in  (* L179 *)
  let rho := e Dynamic_Atmosphere_DENSITY in  (* L181 *)
  let sos := e Dynamic_Atmosphere_SPEED_OF_SOUND in  (* L182 *)
  let TAS := e Dynamic_Mission_VELOCITY in  (* L185 *)
  let o_Atmosphere_MACH := TAS / sos in  (* L186 *)
  let mach := o_Atmosphere_MACH in  (* L186 *)
  let o_EAS := TAS * (rho / rho_sea_level) ** (5 / 10) in  (* L187 *)
  let o_Atmosphere_DYNAMIC_PRESSURE := 5 / 10 * rho * TAS ^ 2 in  (* L188 *)
  [(Dynamic_Atmosphere_MACH, o_Atmosphere_MACH);
   (v_EAS, o_EAS);
   (Dynamic_Atmosphere_DYNAMIC_PRESSURE, o_Atmosphere_DYNAMIC_PRESSURE)].

(** FlightConditions.compute_partials, /repo/aviary/subsystems/atmosphere/flight_conditions.py L202-252 *)
Definition FlightConditions_TAS_partials (op : options) (e : env) : list (string * string * R) :=
  let rho := e Dynamic_Atmosphere_DENSITY in  (* L205 *)
  let sos := e Dynamic_Atmosphere_SPEED_OF_SOUND in  (* L206 *)
  let rho_sea_level := on op Mission_SEA_LEVEL_DENSITY in  (* L207 *)
  let TAS := e Dynamic_Mission_VELOCITY in  (* L210 *)
  let d_Atmosphere_DYNAMIC_PRESSURE__Mission_VELOCITY := rho * TAS in  (* L212 *)
  let d_Atmosphere_DYNAMIC_PRESSURE__Atmosphere_DENSITY := 5 / 10 * TAS ^ 2 in  (* L213 *)
  let d_Atmosphere_MACH__Mission_VELOCITY := 1 / sos in  (* L215 *)
  let d_Atmosphere_MACH__Atmosphere_SPEED_OF_SOUND := - TAS / sos ^ 2 in  (* L216 *)
  let d_EAS__Mission_VELOCITY := (rho / rho_sea_level) ** (5 / 10) in  (* L218 *)
  let d_EAS__Atmosphere_DENSITY := TAS * (5 / 10) * (rho ** (- 5 / 10) / rho_sea_level ** (5 / 10)) in  (* L219 *)
  [(Dynamic_Atmosphere_DYNAMIC_PRESSURE, Dynamic_Mission_VELOCITY, d_Atmosphere_DYNAMIC_PRESSURE__Mission_VELOCITY);
   (Dynamic_Atmosphere_DYNAMIC_PRESSURE, Dynamic_Atmosphere_DENSITY,
       d_Atmosphere_DYNAMIC_PRESSURE__Atmosphere_DENSITY);
   (Dynamic_Atmosphere_MACH, Dynamic_Mission_VELOCITY, d_Atmosphere_MACH__Mission_VELOCITY);
   (Dynamic_Atmosphere_MACH, Dynamic_Atmosphere_SPEED_OF_SOUND, d_Atmosphere_MACH__Atmosphere_SPEED_OF_SOUND);
   (v_EAS, Dynamic_Mission_VELOCITY, d_EAS__Mission_VELOCITY);
   (v_EAS, Dynamic_Atmosphere_DENSITY, d_EAS__Atmosphere_DENSITY)].

(** Inputs, outputs and declared partials: /repo/aviary/subsystems/atmosphere/flight_conditions.py L25-175 *)
Definition FlightConditions_TAS (op : options) : comp := {|
  c_ins := [Dynamic_Atmosphere_DENSITY;
            Dynamic_Atmosphere_SPEED_OF_SOUND;
            Dynamic_Mission_VELOCITY];
  c_outs := [Dynamic_Atmosphere_DYNAMIC_PRESSURE;
             v_EAS;
             Dynamic_Atmosphere_MACH];
  c_decl := [(Dynamic_Atmosphere_DYNAMIC_PRESSURE, Dynamic_Atmosphere_DENSITY, 0);
             (Dynamic_Atmosphere_DYNAMIC_PRESSURE, Dynamic_Mission_VELOCITY, 0);
             (Dynamic_Atmosphere_MACH, Dynamic_Atmosphere_SPEED_OF_SOUND, 0);
             (Dynamic_Atmosphere_MACH, Dynamic_Mission_VELOCITY, 0);
             (v_EAS, Dynamic_Mission_VELOCITY, 0);
             (v_EAS, Dynamic_Atmosphere_DENSITY, 0)];
  c_run := FlightConditions_TAS_compute op; c_jac := FlightConditions_TAS_partials op |}.

(** The inputs that are scalars, shared by all nodes. *)
Definition FlightConditions_TAS_shared : list string := [].

(** UnsteadySolvedFlightConditions.compute, /repo/aviary/mission/solved_two_dof/ode/unsteady_solved_flight_conditions.py L300-341 with ground_roll = False, input_speed_type = EAS *)
Definition UnsteadyConditions_EAS_flight_compute (op : options) (e : env) : list (string * R) :=
  let rho := e Dynamic_Atmosphere_DENSITY in  (* L304 *)
  let rho_sl := on op Mission_SEA_LEVEL_DENSITY in  (* L305 *)
  let sqrt_rho_rho_sl := sqrt (rho / rho_sl) in  (* L306 *)
  let sos := e Dynamic_Atmosphere_SPEED_OF_SOUND in  (* L307 *)
  let cgam := cos (e Dynamic_Mission_FLIGHT_PATH_ANGLE) in  (* L309 *)
  let sgam := sin (e Dynamic_Mission_FLIGHT_PATH_ANGLE) in  (* L310 *)
  let eas := e v_EAS in  (* L320 *)
  let drho_dh := e v_drho_dh in  (* L321 *)
  let deas_dr := e v_dEAS_dr in  (* L322 *)
  let o_Mission_VELOCITY := eas / sqrt_rho_rho_sl in  (* L323 *)
  let tas := o_Mission_VELOCITY in  (* L323 *)
  let o_Atmosphere_MACH := tas / sos in  (* L324 *)
  let drho_dt_approx := drho_dh * tas * sgam in  (* L325 *)
  let deas_dt_approx := deas_dr * tas * cgam in  (* L326 *)
  let o_dTAS_dt_approx := deas_dt_approx * (rho_sl / rho) ** (15 / 10) - 5 / 10 * eas * drho_dt_approx * rho_sl ** (15
      / 10) / rho_sl ** (25 / 10) in  (* L327 *)
  let o_Atmosphere_DYNAMIC_PRESSURE := 5 / 10 * rho * tas ^ 2 in  (* L341 *)
  [(Dynamic_Mission_VELOCITY, o_Mission_VELOCITY);
   (Dynamic_Atmosphere_MACH, o_Atmosphere_MACH);
   (v_dTAS_dt_approx, o_dTAS_dt_approx);
   (Dynamic_Atmosphere_DYNAMIC_PRESSURE, o_Atmosphere_DYNAMIC_PRESSURE)].

(** UnsteadySolvedFlightConditions.compute_partials, /repo/aviary/mission/solved_two_dof/ode/unsteady_solved_flight_conditions.py L343-429 *)
Definition UnsteadyConditions_EAS_flight_partials (op : options) (e : env) : list (string * string * R) :=
  let rho := e Dynamic_Atmosphere_DENSITY in  (* L347 *)
  let rho_sl := on op Mission_SEA_LEVEL_DENSITY in  (* L348 *)
  let sqrt_rho_rho_sl := sqrt (rho / rho_sl) in  (* L349 *)
  let dsqrt_rho_rho_sl_drho := 5 / 10 / sqrt_rho_rho_sl / rho_sl in  (* L350 *)
  let sos := e Dynamic_Atmosphere_SPEED_OF_SOUND in  (* L351 *)
  let cgam := cos (e Dynamic_Mission_FLIGHT_PATH_ANGLE) in  (* L353 *)
  let sgam := sin (e Dynamic_Mission_FLIGHT_PATH_ANGLE) in  (* L354 *)
  let EAS := e v_EAS in  (* L380 *)
  let TAS := EAS / sqrt_rho_rho_sl in  (* L381 *)
  let dTAS_dRho := - 5 / 10 * EAS * rho_sl ** (5 / 10) / rho ** (15 / 10) in  (* L383 *)
  let dTAS_dEAS := 1 / sqrt_rho_rho_sl in  (* L384 *)
  let d_Atmosphere_DYNAMIC_PRESSURE__EAS := EAS * rho_sl in  (* L386 *)
  let d_Atmosphere_MACH__EAS := dTAS_dEAS / sos in  (* L387 *)
  let d_Atmosphere_MACH__Atmosphere_DENSITY := dTAS_dRho / sos in  (* L388 *)
  let d_Atmosphere_MACH__Atmosphere_SPEED_OF_SOUND := - TAS / sos ^ 2 in  (* L389 *)
  let d_Mission_VELOCITY__Atmosphere_DENSITY := dTAS_dRho in  (* L390 *)
  let d_Mission_VELOCITY__EAS := dTAS_dEAS in  (* L391 *)
  let d_dTAS_dt_approx__dEAS_dr := TAS * cgam * (rho_sl / rho) ** (15 / 10) in  (* L392 *)
  let d_dTAS_dt_approx__drho_dh := - 5 / 10 * EAS * TAS * sgam * rho_sl ** (15 / 10) / rho_sl ** (25 / 10) in  (* L393 *)
  let d_dTAS_dt_approx__Mission_FLIGHT_PATH_ANGLE := - TAS * sgam * (rho_sl / rho) ** (15 / 10) * e v_dEAS_dr - 5 / 10
      * EAS * TAS * cgam * rho_sl ** (15 / 10) / rho_sl ** (25 / 10) * e v_drho_dh in  (* L398 *)
  [(Dynamic_Atmosphere_DYNAMIC_PRESSURE, v_EAS, d_Atmosphere_DYNAMIC_PRESSURE__EAS);
   (Dynamic_Atmosphere_MACH, v_EAS, d_Atmosphere_MACH__EAS);
   (Dynamic_Atmosphere_MACH, Dynamic_Atmosphere_DENSITY, d_Atmosphere_MACH__Atmosphere_DENSITY);
   (Dynamic_Atmosphere_MACH, Dynamic_Atmosphere_SPEED_OF_SOUND, d_Atmosphere_MACH__Atmosphere_SPEED_OF_SOUND);
   (Dynamic_Mission_VELOCITY, Dynamic_Atmosphere_DENSITY, d_Mission_VELOCITY__Atmosphere_DENSITY);
   (Dynamic_Mission_VELOCITY, v_EAS, d_Mission_VELOCITY__EAS);
   (v_dTAS_dt_approx, v_dEAS_dr, d_dTAS_dt_approx__dEAS_dr);
   (v_dTAS_dt_approx, v_drho_dh, d_dTAS_dt_approx__drho_dh);
   (v_dTAS_dt_approx, Dynamic_Mission_FLIGHT_PATH_ANGLE, d_dTAS_dt_approx__Mission_FLIGHT_PATH_ANGLE)].

(** Inputs, outputs and declared partials: /repo/aviary/mission/solved_two_dof/ode/unsteady_solved_flight_conditions.py L63-298 *)
Definition UnsteadyConditions_EAS_flight (op : options) : comp := {|
  c_ins := [Dynamic_Atmosphere_DENSITY;
            Dynamic_Atmosphere_SPEED_OF_SOUND;
            Dynamic_Mission_FLIGHT_PATH_ANGLE;
            v_EAS;
            v_dEAS_dr;
            v_drho_dh];
  c_outs := [Dynamic_Atmosphere_DYNAMIC_PRESSURE;
             v_dTAS_dt_approx;
             Dynamic_Mission_VELOCITY;
             Dynamic_Atmosphere_MACH];
  c_decl := [(v_dTAS_dt_approx, Dynamic_Mission_FLIGHT_PATH_ANGLE, 0);
             (Dynamic_Atmosphere_DYNAMIC_PRESSURE, Dynamic_Atmosphere_DENSITY, 0);
             (Dynamic_Atmosphere_DYNAMIC_PRESSURE, v_EAS, 0);
             (Dynamic_Atmosphere_MACH, Dynamic_Atmosphere_SPEED_OF_SOUND, 0);
             (Dynamic_Atmosphere_MACH, v_EAS, 0);
             (Dynamic_Atmosphere_MACH, Dynamic_Atmosphere_DENSITY, 0);
             (Dynamic_Mission_VELOCITY, Dynamic_Atmosphere_DENSITY, 0);
             (Dynamic_Mission_VELOCITY, v_EAS, 0);
             (v_dTAS_dt_approx, v_drho_dh, 0);
             (v_dTAS_dt_approx, Dynamic_Atmosphere_DENSITY, 0);
             (v_dTAS_dt_approx, v_EAS, 0);
             (v_dTAS_dt_approx, v_dEAS_dr, 0)];
  c_run := UnsteadyConditions_EAS_flight_compute op; c_jac := UnsteadyConditions_EAS_flight_partials op |}.

(** The inputs that are scalars, shared by all nodes. *)
Definition UnsteadyConditions_EAS_flight_shared : list string := [].

(** UnsteadySolvedFlightConditions.compute, /repo/aviary/mission/solved_two_dof/ode/unsteady_solved_flight_conditions.py L300-341 with ground_roll = True, input_speed_type = EAS *)
Definition UnsteadyConditions_EAS_ground_compute (op : options) (e : env) : list (string * R) :=
  let rho := e Dynamic_Atmosphere_DENSITY in  (* L304 *)
  let rho_sl := on op Mission_SEA_LEVEL_DENSITY in  (* L305 *)
  let sqrt_rho_rho_sl := sqrt (rho / rho_sl) in  (* L306 *)
  let sos := e Dynamic_Atmosphere_SPEED_OF_SOUND in  (* L307 *)
  let cgam := 1 in  (* L309 *)
  let sgam := 0 in  (* L310 *)
  let eas := e v_EAS in  (* L320 *)
  let drho_dh := e v_drho_dh in  (* L321 *)
  let deas_dr := e v_dEAS_dr in  (* L322 *)
  let o_Mission_VELOCITY := eas / sqrt_rho_rho_sl in  (* L323 *)
  let tas := o_Mission_VELOCITY in  (* L323 *)
  let o_Atmosphere_MACH := tas / sos in  (* L324 *)
  let drho_dt_approx := drho_dh * tas * sgam in  (* L325 *)
  let deas_dt_approx := deas_dr * tas * cgam in  (* L326 *)
  let o_dTAS_dt_approx := deas_dt_approx * (rho_sl / rho) ** (15 / 10) - 5 / 10 * eas * drho_dt_approx * rho_sl ** (15
      / 10) / rho_sl ** (25 / 10) in  (* L327 *)
  let o_Atmosphere_DYNAMIC_PRESSURE := 5 / 10 * rho * tas ^ 2 in  (* L341 *)
  [(Dynamic_Mission_VELOCITY, o_Mission_VELOCITY);
   (Dynamic_Atmosphere_MACH, o_Atmosphere_MACH);
   (v_dTAS_dt_approx, o_dTAS_dt_approx);
   (Dynamic_Atmosphere_DYNAMIC_PRESSURE, o_Atmosphere_DYNAMIC_PRESSURE)].

(** UnsteadySolvedFlightConditions.compute_partials, /repo/aviary/mission/solved_two_dof/ode/unsteady_solved_flight_conditions.py L343-429 *)
Definition UnsteadyConditions_EAS_ground_partials (op : options) (e : env) : list (string * string * R) :=
  let rho := e Dynamic_Atmosphere_DENSITY in  (* L347 *)
  let rho_sl := on op Mission_SEA_LEVEL_DENSITY in  (* L348 *)
  let sqrt_rho_rho_sl := sqrt (rho / rho_sl) in  (* L349 *)
  let dsqrt_rho_rho_sl_drho := 5 / 10 / sqrt_rho_rho_sl / rho_sl in  (* L350 *)
  let sos := e Dynamic_Atmosphere_SPEED_OF_SOUND in  (* L351 *)
  let cgam := 1 in  (* L353 *)
  let sgam := 0 in  (* L354 *)
  let EAS := e v_EAS in  (* L380 *)
  let TAS := EAS / sqrt_rho_rho_sl in  (* L381 *)
  let dTAS_dRho := - 5 / 10 * EAS * rho_sl ** (5 / 10) / rho ** (15 / 10) in  (* L383 *)
  let dTAS_dEAS := 1 / sqrt_rho_rho_sl in  (* L384 *)
  let d_Atmosphere_DYNAMIC_PRESSURE__EAS := EAS * rho_sl in  (* L386 *)
  let d_Atmosphere_MACH__EAS := dTAS_dEAS / sos in  (* L387 *)
  let d_Atmosphere_MACH__Atmosphere_DENSITY := dTAS_dRho / sos in  (* L388 *)
  let d_Atmosphere_MACH__Atmosphere_SPEED_OF_SOUND := - TAS / sos ^ 2 in  (* L389 *)
  let d_Mission_VELOCITY__Atmosphere_DENSITY := dTAS_dRho in  (* L390 *)
  let d_Mission_VELOCITY__EAS := dTAS_dEAS in  (* L391 *)
  let d_dTAS_dt_approx__dEAS_dr := TAS * cgam * (rho_sl / rho) ** (15 / 10) in  (* L392 *)
  let d_dTAS_dt_approx__drho_dh := - 5 / 10 * EAS * TAS * sgam * rho_sl ** (15 / 10) / rho_sl ** (25 / 10) in  (* L393 *)
  [(Dynamic_Atmosphere_DYNAMIC_PRESSURE, v_EAS, d_Atmosphere_DYNAMIC_PRESSURE__EAS);
   (Dynamic_Atmosphere_MACH, v_EAS, d_Atmosphere_MACH__EAS);
   (Dynamic_Atmosphere_MACH, Dynamic_Atmosphere_DENSITY, d_Atmosphere_MACH__Atmosphere_DENSITY);
   (Dynamic_Atmosphere_MACH, Dynamic_Atmosphere_SPEED_OF_SOUND, d_Atmosphere_MACH__Atmosphere_SPEED_OF_SOUND);
   (Dynamic_Mission_VELOCITY, Dynamic_Atmosphere_DENSITY, d_Mission_VELOCITY__Atmosphere_DENSITY);
   (Dynamic_Mission_VELOCITY, v_EAS, d_Mission_VELOCITY__EAS);
   (v_dTAS_dt_approx, v_dEAS_dr, d_dTAS_dt_approx__dEAS_dr);
   (v_dTAS_dt_approx, v_drho_dh, d_dTAS_dt_approx__drho_dh)].

(** Inputs, outputs and declared partials: /repo/aviary/mission/solved_two_dof/ode/unsteady_solved_flight_conditions.py L63-298 *)
Definition UnsteadyConditions_EAS_ground (op : options) : comp := {|
  c_ins := [Dynamic_Atmosphere_DENSITY;
            Dynamic_Atmosphere_SPEED_OF_SOUND;
            v_EAS;
            v_dEAS_dr;
            v_drho_dh];
  c_outs := [Dynamic_Atmosphere_DYNAMIC_PRESSURE;
             v_dTAS_dt_approx;
             Dynamic_Mission_VELOCITY;
             Dynamic_Atmosphere_MACH];
  c_decl := [(Dynamic_Atmosphere_DYNAMIC_PRESSURE, Dynamic_Atmosphere_DENSITY, 0);
             (Dynamic_Atmosphere_DYNAMIC_PRESSURE, v_EAS, 0);
             (Dynamic_Atmosphere_MACH, Dynamic_Atmosphere_SPEED_OF_SOUND, 0);
             (Dynamic_Atmosphere_MACH, v_EAS, 0);
             (Dynamic_Atmosphere_MACH, Dynamic_Atmosphere_DENSITY, 0);
             (Dynamic_Mission_VELOCITY, Dynamic_Atmosphere_DENSITY, 0);
             (Dynamic_Mission_VELOCITY, v_EAS, 0);
             (v_dTAS_dt_approx, v_drho_dh, 0);
             (v_dTAS_dt_approx, Dynamic_Atmosphere_DENSITY, 0);
             (v_dTAS_dt_approx, v_EAS, 0);
             (v_dTAS_dt_approx, v_dEAS_dr, 0)];
  c_run := UnsteadyConditions_EAS_ground_compute op; c_jac := UnsteadyConditions_EAS_ground_partials op |}.

(** The inputs that are scalars, shared by all nodes. *)
Definition UnsteadyConditions_EAS_ground_shared : list string := [].

(** FlightConditions.compute, /repo/aviary/subsystems/atmosphere/flight_conditions.py L177-200 with input_speed_type = EAS *)
Definition FlightConditions_EAS_compute (op : options) (e : env) : list (string * R) :=
  let rho_sea_level := on op Mission_SEA_LEVEL_DENSITY in  (* L179 *)
  let rho := e Dynamic_Atmosphere_DENSITY in  (* L181 *)
  let sos := e Dynamic_Atmosphere_SPEED_OF_SOUND in  (* L182 *)
  let EAS := e v_EAS in  (* L191 *)
  let o_Mission_VELOCITY := EAS / (rho / rho_sea_level) ** (5 / 10) in  (* L192 *)
  let TAS := o_Mission_VELOCITY in  (* L192 *)
  let o_Atmosphere_MACH := TAS / sos in  (* L193 *)
  let mach := o_Atmosphere_MACH in  (* L193 *)
  let o_Atmosphere_DYNAMIC_PRESSURE := 5 / 10 * EAS ^ 2 * rho_sea_level in  (* L194 *)
  [(Dynamic_Mission_VELOCITY, o_Mission_VELOCITY);
   (Dynamic_Atmosphere_MACH, o_Atmosphere_MACH);
   (Dynamic_Atmosphere_DYNAMIC_PRESSURE, o_Atmosphere_DYNAMIC_PRESSURE)].

(** FlightConditions.compute_partials, /repo/aviary/subsystems/atmosphere/flight_conditions.py L202-252 *)
Definition FlightConditions_EAS_partials (op : options) (e : env) : list (string * string * R) :=
  let rho := e Dynamic_Atmosphere_DENSITY in  (* L205 *)
  let sos := e Dynamic_Atmosphere_SPEED_OF_SOUND in  (* L206 *)
  let rho_sea_level := on op Mission_SEA_LEVEL_DENSITY in  (* L207 *)
  let EAS := e v_EAS in  (* L222 *)
  let TAS := EAS / (rho / rho_sea_level) ** (5 / 10) in  (* L223 *)
  let dTAS_dRho := - 5 / 10 * EAS * rho_sea_level ** (5 / 10) / rho ** (15 / 10) in  (* L225 *)
  let dTAS_dEAS := 1 / (rho / rho_sea_level) ** (5 / 10) in  (* L226 *)
  let d_Atmosphere_DYNAMIC_PRESSURE__EAS := EAS * rho_sea_level in  (* L228 *)
  let d_Atmosphere_MACH__EAS := dTAS_dEAS / sos in  (* L229 *)
  let d_Atmosphere_MACH__Atmosphere_DENSITY := dTAS_dRho / sos in  (* L230 *)
  let d_Atmosphere_MACH__Atmosphere_SPEED_OF_SOUND := - TAS / sos ^ 2 in  (* L231 *)
  let d_Mission_VELOCITY__Atmosphere_DENSITY := dTAS_dRho in  (* L232 *)
  let d_Mission_VELOCITY__EAS := dTAS_dEAS in  (* L233 *)
  [(Dynamic_Atmosphere_DYNAMIC_PRESSURE, v_EAS, d_Atmosphere_DYNAMIC_PRESSURE__EAS);
   (Dynamic_Atmosphere_MACH, v_EAS, d_Atmosphere_MACH__EAS);
   (Dynamic_Atmosphere_MACH, Dynamic_Atmosphere_DENSITY, d_Atmosphere_MACH__Atmosphere_DENSITY);
   (Dynamic_Atmosphere_MACH, Dynamic_Atmosphere_SPEED_OF_SOUND, d_Atmosphere_MACH__Atmosphere_SPEED_OF_SOUND);
   (Dynamic_Mission_VELOCITY, Dynamic_Atmosphere_DENSITY, d_Mission_VELOCITY__Atmosphere_DENSITY);
   (Dynamic_Mission_VELOCITY, v_EAS, d_Mission_VELOCITY__EAS)].

(** Inputs, outputs and declared partials: /repo/aviary/subsystems/atmosphere/flight_conditions.py L25-175 *)
Definition FlightConditions_EAS (op : options) : comp := {|
  c_ins := [Dynamic_Atmosphere_DENSITY;
            Dynamic_Atmosphere_SPEED_OF_SOUND;
            v_EAS];
  c_outs := [Dynamic_Atmosphere_DYNAMIC_PRESSURE;
             Dynamic_Mission_VELOCITY;
             Dynamic_Atmosphere_MACH];
  c_decl := [(Dynamic_Atmosphere_DYNAMIC_PRESSURE, Dynamic_Atmosphere_DENSITY, 0);
             (Dynamic_Atmosphere_DYNAMIC_PRESSURE, v_EAS, 0);
             (Dynamic_Atmosphere_MACH, Dynamic_Atmosphere_SPEED_OF_SOUND, 0);
             (Dynamic_Atmosphere_MACH, v_EAS, 0);
             (Dynamic_Atmosphere_MACH, Dynamic_Atmosphere_DENSITY, 0);
             (Dynamic_Mission_VELOCITY, Dynamic_Atmosphere_DENSITY, 0);
             (Dynamic_Mission_VELOCITY, v_EAS, 0)];
  c_run := FlightConditions_EAS_compute op; c_jac := FlightConditions_EAS_partials op |}.

(** The inputs that are scalars, shared by all nodes. *)
Definition FlightConditions_EAS_shared : list string := [].

(** UnsteadySolvedFlightConditions.compute, /repo/aviary/mission/solved_two_dof/ode/unsteady_solved_flight_conditions.py L300-341 with ground_roll = False, input_speed_type = MACH *)
Definition UnsteadyConditions_MACH_flight_compute (op : options) (e : env) : list (string * R) :=
  let rho := e Dynamic_Atmosphere_DENSITY in  (* L304 *)
  let rho_sl := on op Mission_SEA_LEVEL_DENSITY in  (* L305 *)
  let sqrt_rho_rho_sl := sqrt (rho / rho_sl) in  (* L306 *)
  let sos := e Dynamic_Atmosphere_SPEED_OF_SOUND in  (* L307 *)
  let cgam := cos (e Dynamic_Mission_FLIGHT_PATH_ANGLE) in  (* L309 *)
  let sgam := sin (e Dynamic_Mission_FLIGHT_PATH_ANGLE) in  (* L310 *)
  let mach := e Dynamic_Atmosphere_MACH in  (* L333 *)
  let dmach_dr := e v_dmach_dr in  (* L334 *)
  let o_Mission_VELOCITY := sos * mach in  (* L335 *)
  let tas := o_Mission_VELOCITY in  (* L335 *)
  let o_EAS := tas * sqrt_rho_rho_sl in  (* L336 *)
  let dmach_dt_approx := dmach_dr * tas * cgam in  (* L337 *)
  let dsos_dt_approx := e v_dsos_dh * tas * sgam in  (* L338 *)
  let o_dTAS_dt_approx := dmach_dt_approx * sos + dsos_dt_approx * tas / sos in  (* L339 *)
  let o_Atmosphere_DYNAMIC_PRESSURE := 5 / 10 * rho * tas ^ 2 in  (* L341 *)
  [(Dynamic_Mission_VELOCITY, o_Mission_VELOCITY);
   (v_EAS, o_EAS);
   (v_dTAS_dt_approx, o_dTAS_dt_approx);
   (Dynamic_Atmosphere_DYNAMIC_PRESSURE, o_Atmosphere_DYNAMIC_PRESSURE)].

(** UnsteadySolvedFlightConditions.compute_partials, /repo/aviary/mission/solved_two_dof/ode/unsteady_solved_flight_conditions.py L343-429 *)
Definition UnsteadyConditions_MACH_flight_partials (op : options) (e : env) : list (string * string * R) :=
  let rho := e Dynamic_Atmosphere_DENSITY in  (* L347 *)
  let rho_sl := on op Mission_SEA_LEVEL_DENSITY in  (* L348 *)
  let sqrt_rho_rho_sl := sqrt (rho / rho_sl) in  (* L349 *)
  let dsqrt_rho_rho_sl_drho := 5 / 10 / sqrt_rho_rho_sl / rho_sl in  (* L350 *)
  let sos := e Dynamic_Atmosphere_SPEED_OF_SOUND in  (* L351 *)
  let cgam := cos (e Dynamic_Mission_FLIGHT_PATH_ANGLE) in  (* L353 *)
  let sgam := sin (e Dynamic_Mission_FLIGHT_PATH_ANGLE) in  (* L354 *)
  let mach := e Dynamic_Atmosphere_MACH in  (* L404 *)
  let TAS := sos * mach in  (* L405 *)
  let d_Atmosphere_DYNAMIC_PRESSURE__Atmosphere_SPEED_OF_SOUND := rho * sos * mach ^ 2 in  (* L407 *)
  let d_Atmosphere_DYNAMIC_PRESSURE__Atmosphere_MACH := rho * sos ^ 2 * mach in  (* L410 *)
  let d_Atmosphere_DYNAMIC_PRESSURE__Atmosphere_DENSITY := 5 / 10 * sos ^ 2 * mach ^ 2 in  (* L413 *)
  let d_Mission_VELOCITY__Atmosphere_SPEED_OF_SOUND := mach in  (* L416 *)
  let d_Mission_VELOCITY__Atmosphere_MACH := sos in  (* L417 *)
  let d_EAS__Atmosphere_SPEED_OF_SOUND := mach * sqrt_rho_rho_sl in  (* L418 *)
  let d_EAS__Atmosphere_MACH := sos * sqrt_rho_rho_sl in  (* L419 *)
  let d_EAS__Atmosphere_DENSITY := TAS * (1 / rho_sl) ** (5 / 10) * (5 / 10) * rho ** (- 5 / 10) in  (* L420 *)
  let d_dTAS_dt_approx__dmach_dr := TAS * cgam * sos in  (* L423 *)
  let d_dTAS_dt_approx__dsos_dh := TAS ^ 2 * sgam / sos in  (* L424 *)
  let d_dTAS_dt_approx__Mission_FLIGHT_PATH_ANGLE := - TAS * sgam * sos * e v_dmach_dr + TAS ^ 2 * cgam / sos * e
      v_dsos_dh in  (* L427 *)
  [(Dynamic_Atmosphere_DYNAMIC_PRESSURE, Dynamic_Atmosphere_SPEED_OF_SOUND,
      d_Atmosphere_DYNAMIC_PRESSURE__Atmosphere_SPEED_OF_SOUND);
   (Dynamic_Atmosphere_DYNAMIC_PRESSURE, Dynamic_Atmosphere_MACH, d_Atmosphere_DYNAMIC_PRESSURE__Atmosphere_MACH);
   (Dynamic_Atmosphere_DYNAMIC_PRESSURE, Dynamic_Atmosphere_DENSITY,
       d_Atmosphere_DYNAMIC_PRESSURE__Atmosphere_DENSITY);
   (Dynamic_Mission_VELOCITY, Dynamic_Atmosphere_SPEED_OF_SOUND, d_Mission_VELOCITY__Atmosphere_SPEED_OF_SOUND);
   (Dynamic_Mission_VELOCITY, Dynamic_Atmosphere_MACH, d_Mission_VELOCITY__Atmosphere_MACH);
   (v_EAS, Dynamic_Atmosphere_SPEED_OF_SOUND, d_EAS__Atmosphere_SPEED_OF_SOUND);
   (v_EAS, Dynamic_Atmosphere_MACH, d_EAS__Atmosphere_MACH);
   (v_EAS, Dynamic_Atmosphere_DENSITY, d_EAS__Atmosphere_DENSITY);
   (v_dTAS_dt_approx, v_dmach_dr, d_dTAS_dt_approx__dmach_dr);
   (v_dTAS_dt_approx, v_dsos_dh, d_dTAS_dt_approx__dsos_dh);
   (v_dTAS_dt_approx, Dynamic_Mission_FLIGHT_PATH_ANGLE, d_dTAS_dt_approx__Mission_FLIGHT_PATH_ANGLE)].

(** Inputs, outputs and declared partials: /repo/aviary/mission/solved_two_dof/ode/unsteady_solved_flight_conditions.py L63-298 *)
Definition UnsteadyConditions_MACH_flight (op : options) : comp := {|
  c_ins := [Dynamic_Atmosphere_DENSITY;
            Dynamic_Atmosphere_SPEED_OF_SOUND;
            Dynamic_Mission_FLIGHT_PATH_ANGLE;
            Dynamic_Atmosphere_MACH;
            v_dmach_dr;
            v_dsos_dh];
  c_outs := [Dynamic_Atmosphere_DYNAMIC_PRESSURE;
             v_dTAS_dt_approx;
             v_EAS;
             Dynamic_Mission_VELOCITY];
  c_decl := [(v_dTAS_dt_approx, Dynamic_Mission_FLIGHT_PATH_ANGLE, 0);
             (Dynamic_Atmosphere_DYNAMIC_PRESSURE, Dynamic_Atmosphere_SPEED_OF_SOUND, 0);
             (Dynamic_Atmosphere_DYNAMIC_PRESSURE, Dynamic_Atmosphere_MACH, 0);
             (Dynamic_Atmosphere_DYNAMIC_PRESSURE, Dynamic_Atmosphere_DENSITY, 0);
             (Dynamic_Mission_VELOCITY, Dynamic_Atmosphere_SPEED_OF_SOUND, 0);
             (Dynamic_Mission_VELOCITY, Dynamic_Atmosphere_MACH, 0);
             (v_EAS, Dynamic_Atmosphere_SPEED_OF_SOUND, 0);
             (v_EAS, Dynamic_Atmosphere_MACH, 0);
             (v_EAS, Dynamic_Atmosphere_DENSITY, 0);
             (v_dTAS_dt_approx, v_dmach_dr, 0);
             (v_dTAS_dt_approx, v_dsos_dh, 0)];
  c_run := UnsteadyConditions_MACH_flight_compute op; c_jac := UnsteadyConditions_MACH_flight_partials op |}.

(** The inputs that are scalars, shared by all nodes. *)
Definition UnsteadyConditions_MACH_flight_shared : list string := [].

(** UnsteadySolvedFlightConditions.compute, /repo/aviary/mission/solved_two_dof/ode/unsteady_solved_flight_conditions.py L300-341 with ground_roll = True, input_speed_type = MACH *)
Definition UnsteadyConditions_MACH_ground_compute (op : options) (e : env) : list (string * R) :=
  let rho := e Dynamic_Atmosphere_DENSITY in  (* L304 *)
  let rho_sl := on op Mission_SEA_LEVEL_DENSITY in  (* L305 *)
  let sqrt_rho_rho_sl := sqrt (rho / rho_sl) in  (* L306 *)
  let sos := e Dynamic_Atmosphere_SPEED_OF_SOUND in  (* L307 *)
  let cgam := 1 in  (* L309 *)
  let sgam := 0 in  (* L310 *)
  let mach := e Dynamic_Atmosphere_MACH in  (* L333 *)
  let dmach_dr := e v_dmach_dr in  (* L334 *)
  let o_Mission_VELOCITY := sos * mach in  (* L335 *)
  let tas := o_Mission_VELOCITY in  (* L335 *)
  let o_EAS := tas * sqrt_rho_rho_sl in  (* L336 *)
  let dmach_dt_approx := dmach_dr * tas * cgam in  (* L337 *)
  let dsos_dt_approx := e v_dsos_dh * tas * sgam in  (* L338 *)
  let o_dTAS_dt_approx := dmach_dt_approx * sos + dsos_dt_approx * tas / sos in  (* L339 *)
  let o_Atmosphere_DYNAMIC_PRESSURE := 5 / 10 * rho * tas ^ 2 in  (* L341 *)
  [(Dynamic_Mission_VELOCITY, o_Mission_VELOCITY);
   (v_EAS, o_EAS);
   (v_dTAS_dt_approx, o_dTAS_dt_approx);
   (Dynamic_Atmosphere_DYNAMIC_PRESSURE, o_Atmosphere_DYNAMIC_PRESSURE)].

(** UnsteadySolvedFlightConditions.compute_partials, /repo/aviary/mission/solved_two_dof/ode/unsteady_solved_flight_conditions.py L343-429 *)
Definition UnsteadyConditions_MACH_ground_partials (op : options) (e : env) : list (string * string * R) :=
  let rho := e Dynamic_Atmosphere_DENSITY in  (* L347 *)
  let rho_sl := on op Mission_SEA_LEVEL_DENSITY in  (* L348 *)
  let sqrt_rho_rho_sl := sqrt (rho / rho_sl) in  (* L349 *)
  let dsqrt_rho_rho_sl_drho := 5 / 10 / sqrt_rho_rho_sl / rho_sl in  (* L350 *)
  let sos := e Dynamic_Atmosphere_SPEED_OF_SOUND in  (* L351 *)
  let cgam := 1 in  (* L353 *)
  let sgam := 0 in  (* L354 *)
  let mach := e Dynamic_Atmosphere_MACH in  (* L404 *)
  let TAS := sos * mach in  (* L405 *)
  let d_Atmosphere_DYNAMIC_PRESSURE__Atmosphere_SPEED_OF_SOUND := rho * sos * mach ^ 2 in  (* L407 *)
  let d_Atmosphere_DYNAMIC_PRESSURE__Atmosphere_MACH := rho * sos ^ 2 * mach in  (* L410 *)
  let d_Atmosphere_DYNAMIC_PRESSURE__Atmosphere_DENSITY := 5 / 10 * sos ^ 2 * mach ^ 2 in  (* L413 *)
  let d_Mission_VELOCITY__Atmosphere_SPEED_OF_SOUND := mach in  (* L416 *)
  let d_Mission_VELOCITY__Atmosphere_MACH := sos in  (* L417 *)
  let d_EAS__Atmosphere_SPEED_OF_SOUND := mach * sqrt_rho_rho_sl in  (* L418 *)
  let d_EAS__Atmosphere_MACH := sos * sqrt_rho_rho_sl in  (* L419 *)
  let d_EAS__Atmosphere_DENSITY := TAS * (1 / rho_sl) ** (5 / 10) * (5 / 10) * rho ** (- 5 / 10) in  (* L420 *)
  let d_dTAS_dt_approx__dmach_dr := TAS * cgam * sos in  (* L423 *)
  let d_dTAS_dt_approx__dsos_dh := TAS ^ 2 * sgam / sos in  (* L424 *)
  [(Dynamic_Atmosphere_DYNAMIC_PRESSURE, Dynamic_Atmosphere_SPEED_OF_SOUND,
      d_Atmosphere_DYNAMIC_PRESSURE__Atmosphere_SPEED_OF_SOUND);
   (Dynamic_Atmosphere_DYNAMIC_PRESSURE, Dynamic_Atmosphere_MACH, d_Atmosphere_DYNAMIC_PRESSURE__Atmosphere_MACH);
   (Dynamic_Atmosphere_DYNAMIC_PRESSURE, Dynamic_Atmosphere_DENSITY,
       d_Atmosphere_DYNAMIC_PRESSURE__Atmosphere_DENSITY);
   (Dynamic_Mission_VELOCITY, Dynamic_Atmosphere_SPEED_OF_SOUND, d_Mission_VELOCITY__Atmosphere_SPEED_OF_SOUND);
   (Dynamic_Mission_VELOCITY, Dynamic_Atmosphere_MACH, d_Mission_VELOCITY__Atmosphere_MACH);
   (v_EAS, Dynamic_Atmosphere_SPEED_OF_SOUND, d_EAS__Atmosphere_SPEED_OF_SOUND);
   (v_EAS, Dynamic_Atmosphere_MACH, d_EAS__Atmosphere_MACH);
   (v_EAS, Dynamic_Atmosphere_DENSITY, d_EAS__Atmosphere_DENSITY);
   (v_dTAS_dt_approx, v_dmach_dr, d_dTAS_dt_approx__dmach_dr);
   (v_dTAS_dt_approx, v_dsos_dh, d_dTAS_dt_approx__dsos_dh)].

(** Inputs, outputs and declared partials: /repo/aviary/mission/solved_two_dof/ode/unsteady_solved_flight_conditions.py L63-298 *)
Definition UnsteadyConditions_MACH_ground (op : options) : comp := {|
  c_ins := [Dynamic_Atmosphere_DENSITY;
            Dynamic_Atmosphere_SPEED_OF_SOUND;
            Dynamic_Atmosphere_MACH;
            v_dmach_dr;
            v_dsos_dh];
  c_outs := [Dynamic_Atmosphere_DYNAMIC_PRESSURE;
             v_dTAS_dt_approx;
             v_EAS;
             Dynamic_Mission_VELOCITY];
  c_decl := [(Dynamic_Atmosphere_DYNAMIC_PRESSURE, Dynamic_Atmosphere_SPEED_OF_SOUND, 0);
             (Dynamic_Atmosphere_DYNAMIC_PRESSURE, Dynamic_Atmosphere_MACH, 0);
             (Dynamic_Atmosphere_DYNAMIC_PRESSURE, Dynamic_Atmosphere_DENSITY, 0);
             (Dynamic_Mission_VELOCITY, Dynamic_Atmosphere_SPEED_OF_SOUND, 0);
             (Dynamic_Mission_VELOCITY, Dynamic_Atmosphere_MACH, 0);
             (v_EAS, Dynamic_Atmosphere_SPEED_OF_SOUND, 0);
             (v_EAS, Dynamic_Atmosphere_MACH, 0);
             (v_EAS, Dynamic_Atmosphere_DENSITY, 0);
             (v_dTAS_dt_approx, v_dmach_dr, 0);
             (v_dTAS_dt_approx, v_dsos_dh, 0)];
  c_run := UnsteadyConditions_MACH_ground_compute op; c_jac := UnsteadyConditions_MACH_ground_partials op |}.

(** The inputs that are scalars, shared by all nodes. *)
Definition UnsteadyConditions_MACH_ground_shared : list string := [].

(** FlightConditions.compute, /repo/aviary/subsystems/atmosphere/flight_conditions.py L177-200 with input_speed_type = MACH *)
Definition FlightConditions_MACH_compute (op : options) (e : env) : list (string * R) :=
  let rho_sea_level := on op Mission_SEA_LEVEL_DENSITY in  (* L179 *)
  let rho := e Dynamic_Atmosphere_DENSITY in  (* L181 *)
  let sos := e Dynamic_Atmosphere_SPEED_OF_SOUND in  (* L182 *)
  let mach := e Dynamic_Atmosphere_MACH in  (* L197 *)
  let o_Mission_VELOCITY := sos * mach in  (* L198 *)
  let TAS := o_Mission_VELOCITY in  (* L198 *)
  let o_EAS := TAS * (rho / rho_sea_level) ** (5 / 10) in  (* L199 *)
  let o_Atmosphere_DYNAMIC_PRESSURE := 5 / 10 * rho * sos ^ 2 * mach ^ 2 in  (* L200 *)
  [(Dynamic_Mission_VELOCITY, o_Mission_VELOCITY);
   (v_EAS, o_EAS);
   (Dynamic_Atmosphere_DYNAMIC_PRESSURE, o_Atmosphere_DYNAMIC_PRESSURE)].

(** FlightConditions.compute_partials, /repo/aviary/subsystems/atmosphere/flight_conditions.py L202-252 *)
Definition FlightConditions_MACH_partials (op : options) (e : env) : list (string * string * R) :=
  let rho := e Dynamic_Atmosphere_DENSITY in  (* L205 *)
  let sos := e Dynamic_Atmosphere_SPEED_OF_SOUND in  (* L206 *)
  let rho_sea_level := on op Mission_SEA_LEVEL_DENSITY in  (* L207 *)
  let mach := e Dynamic_Atmosphere_MACH in  (* L236 *)
  let TAS := sos * mach in  (* L237 *)
  let d_Atmosphere_DYNAMIC_PRESSURE__Atmosphere_SPEED_OF_SOUND := rho * sos * mach ^ 2 in  (* L239 *)
  let d_Atmosphere_DYNAMIC_PRESSURE__Atmosphere_MACH := rho * sos ^ 2 * mach in  (* L242 *)
  let d_Atmosphere_DYNAMIC_PRESSURE__Atmosphere_DENSITY := 5 / 10 * sos ^ 2 * mach ^ 2 in  (* L243 *)
  let d_Mission_VELOCITY__Atmosphere_SPEED_OF_SOUND := mach in  (* L246 *)
  let d_Mission_VELOCITY__Atmosphere_MACH := sos in  (* L247 *)
  let d_EAS__Atmosphere_SPEED_OF_SOUND := mach * (rho / rho_sea_level) ** (5 / 10) in  (* L248 *)
  let d_EAS__Atmosphere_MACH := sos * (rho / rho_sea_level) ** (5 / 10) in  (* L249 *)
  let d_EAS__Atmosphere_DENSITY := TAS * (1 / rho_sea_level) ** (5 / 10) * (5 / 10) * rho ** (- 5 / 10) in  (* L250 *)
  [(Dynamic_Atmosphere_DYNAMIC_PRESSURE, Dynamic_Atmosphere_SPEED_OF_SOUND,
      d_Atmosphere_DYNAMIC_PRESSURE__Atmosphere_SPEED_OF_SOUND);
   (Dynamic_Atmosphere_DYNAMIC_PRESSURE, Dynamic_Atmosphere_MACH, d_Atmosphere_DYNAMIC_PRESSURE__Atmosphere_MACH);
   (Dynamic_Atmosphere_DYNAMIC_PRESSURE, Dynamic_Atmosphere_DENSITY,
       d_Atmosphere_DYNAMIC_PRESSURE__Atmosphere_DENSITY);
   (Dynamic_Mission_VELOCITY, Dynamic_Atmosphere_SPEED_OF_SOUND, d_Mission_VELOCITY__Atmosphere_SPEED_OF_SOUND);
   (Dynamic_Mission_VELOCITY, Dynamic_Atmosphere_MACH, d_Mission_VELOCITY__Atmosphere_MACH);
   (v_EAS, Dynamic_Atmosphere_SPEED_OF_SOUND, d_EAS__Atmosphere_SPEED_OF_SOUND);
   (v_EAS, Dynamic_Atmosphere_MACH, d_EAS__Atmosphere_MACH);
   (v_EAS, Dynamic_Atmosphere_DENSITY, d_EAS__Atmosphere_DENSITY)].

(** Inputs, outputs and declared partials: /repo/aviary/subsystems/atmosphere/flight_conditions.py L25-175 *)
Definition FlightConditions_MACH (op : options) : comp := {|
  c_ins := [Dynamic_Atmosphere_DENSITY;
            Dynamic_Atmosphere_SPEED_OF_SOUND;
            Dynamic_Atmosphere_MACH];
  c_outs := [Dynamic_Atmosphere_DYNAMIC_PRESSURE;
             v_EAS;
             Dynamic_Mission_VELOCITY];
  c_decl := [(Dynamic_Atmosphere_DYNAMIC_PRESSURE, Dynamic_Atmosphere_SPEED_OF_SOUND, 0);
             (Dynamic_Atmosphere_DYNAMIC_PRESSURE, Dynamic_Atmosphere_MACH, 0);
             (Dynamic_Atmosphere_DYNAMIC_PRESSURE, Dynamic_Atmosphere_DENSITY, 0);
             (Dynamic_Mission_VELOCITY, Dynamic_Atmosphere_SPEED_OF_SOUND, 0);
             (Dynamic_Mission_VELOCITY, Dynamic_Atmosphere_MACH, 0);
             (v_EAS, Dynamic_Atmosphere_SPEED_OF_SOUND, 0);
             (v_EAS, Dynamic_Atmosphere_MACH, 0);
             (v_EAS, Dynamic_Atmosphere_DENSITY, 0)];
  c_run := FlightConditions_MACH_compute op; c_jac := FlightConditions_MACH_partials op |}.

(** The inputs that are scalars, shared by all nodes. *)
Definition FlightConditions_MACH_shared : list string := [].
