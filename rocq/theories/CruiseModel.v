(** Cruise components that work along the nodes of a phase: /repo/aviary/mission/two_dof/ode/breguet_cruise_eom.py,
    /repo/aviary/mission/two_dof/ode/simple_cruise_eom.py, /repo/aviary/mission/two_dof/ode/constraints/speed_constraints.py
    and the least squares fit of /repo/aviary/mission/two_dof/polynomial_fit.py.

    Written by hand.  Arrays are functions of the index, [nn] is num_nodes.  Jacobian matrices stored at the positions
    of np.tril_indices are addressed by row and column; the flat position 0 is row 0, column 0. *)
From Coq Require Import Reals.
From Verif Require Import Base Comp Vec Arr.
Open Scope list_scope.
Open Scope string_scope.
Local Open Scope R_scope.

(** ** Variable names *)
Definition v_cruise_time_initial := "cruise_time_initial".
Definition v_cruise_distance_initial := "cruise_distance_initial".
Definition v_TAS_cruise := "TAS_cruise".
Definition v_mass := "mass".
Definition v_FUEL := "fuel_flow_rate_negative_total".
Definition v_ENERGY := "cumulative_electric_energy_used".
Definition v_POWER := "electric_power_in_total".
Definition v_cruise_time := "cruise_time".
Definition v_cruise_range := "cruise_range".
Definition v_time := "time".
Definition v_DISTANCE := "distance".
Definition v_EAS := "EAS".
Definition v_MACH := "mach".
Definition v_speed_constraint := "speed_constraint".

(** ** RangeComp, breguet_cruise_eom.py L9-245 *)
(** L122-142: the distance covered between node j and node j+1. *)
Definition breguet_factor (e : venv) (k : nat) : R :=
  let W := e v_mass k * GRAV_ENGLISH_LBM in
  let FF := - e v_FUEL k in
  e v_TAS_cruise k * W * 3600 / FF.
Definition breguet_star (e : venv) (j : nat) : R :=
  let W1 := e v_mass j * GRAV_ENGLISH_LBM in
  let W2 := e v_mass (S j) * GRAV_ENGLISH_LBM in
  ln (1 / (1 - (W1 - W2) / W1)).
Definition breguet_drange (e : venv) (j : nat) : R :=
  (breguet_factor e j + breguet_factor e (S j)) / 2 * breguet_star e j.
Definition mean_speed (e : venv) (j : nat) : R := (e v_TAS_cruise j + e v_TAS_cruise (S j)) / 2.

(** L144-147, for the distance [d] of every segment: np.cumsum(d)[j] is vsum (S j) d. *)
Definition cruise_run (d : venv -> nat -> R) (e : venv) (o : string) (k : nat) : R :=
  let r0 := e v_cruise_distance_initial 0%nat in
  let t0 := e v_cruise_time_initial 0%nat in
  if String.eqb o v_cruise_range then
    match k with O => r0 | S j => r0 + vsum (S j) (d e) end
  else
    match k with O => t0 | S j => t0 + vsum (S j) (d e) / mean_speed e j end.

(** L66-113 and L198-245: [first] and [second] are the partials of the distance of segment j with respect to the values at its
    two ends, for each of the array inputs.  Position 0 of the cruise_time partials is never written. *)
Definition cruise_jac (nn : nat) (d : venv -> nat -> R) (first second : venv -> string -> nat -> R)
    (e : venv) (o : string) (k : nat) (i : string) (l : nat) : R :=
  if String.eqb o v_cruise_range then
    if String.eqb i v_cruise_distance_initial then 1
    else if String.eqb i v_cruise_time_initial then 0
    else lower (matmul nn tri (two_diagonals (first e i) (second e i))) k l
  else
    if String.eqb i v_cruise_time_initial then 1
    else if String.eqb i v_cruise_distance_initial then 0
    else match k with
      | O => 0
      | S j =>
        if String.eqb i v_TAS_cruise then
          let f := vsum (S j) (d e) in
          let g := mean_speed e j in
          let df_du := matmul nn tri (two_diagonals (first e i) (second e i)) in
          let dg_du := two_diagonals (fun _ => 5 / 10) (fun _ => 5 / 10) in
          lower (fun k l => (df_du k l * g - dg_du k l * f) / g ^ 2) k l
        else lower (matmul nn tri (two_diagonals (first e i) (second e i))) k l / mean_speed e j
      end.

(** L149-196 *)
Definition breguet_first (e : venv) (i : string) (j : nat) : R :=
  let vx_1 := e v_TAS_cruise j in
  let W1 := e v_mass j * GRAV_ENGLISH_LBM in
  let FF_1 := - e v_FUEL j in
  let star := breguet_star e j in
  let bregA := (breguet_factor e j + breguet_factor e (S j)) / 2 in
  if String.eqb i v_FUEL then vx_1 * W1 * 3600 / FF_1 ^ 2 / 2 * star
  else if String.eqb i v_mass then (vx_1 * 3600 / FF_1 / 2 * star + bregA * (1 / W1)) * GRAV_ENGLISH_LBM
  else W1 * 3600 / FF_1 / 2 * star.
Definition breguet_second (e : venv) (i : string) (j : nat) : R :=
  let vx_2 := e v_TAS_cruise (S j) in
  let W2 := e v_mass (S j) * GRAV_ENGLISH_LBM in
  let FF_2 := - e v_FUEL (S j) in
  let star := breguet_star e j in
  let bregA := (breguet_factor e j + breguet_factor e (S j)) / 2 in
  if String.eqb i v_FUEL then vx_2 * W2 * 3600 / FF_2 ^ 2 / 2 * star
  else if String.eqb i v_mass then (vx_2 * 3600 / FF_2 / 2 * star + bregA * (- (1) / W2)) * GRAV_ENGLISH_LBM
  else W2 * 3600 / FF_2 / 2 * star.

Definition RangeComp (nn : nat) : vcomp := {|
  v_ins := [(v_cruise_time_initial, 1%nat); (v_cruise_distance_initial, 1%nat); (v_TAS_cruise, nn); (v_mass, nn); (v_FUEL, nn)];
  v_outs := [(v_cruise_time, nn); (v_cruise_range, nn)];
  v_run := cruise_run breguet_drange;
  v_jac := cruise_jac nn breguet_drange breguet_first breguet_second |}.

(** ** ElectricRangeComp, breguet_cruise_eom.py L248-473 *)
(** L359-380 *)
Definition electric_factor (e : venv) (k : nat) : R := e v_TAS_cruise k * e v_ENERGY k * 3600 / e v_POWER k.
Definition electric_drange (e : venv) (j : nat) : R := electric_factor e (S j) - electric_factor e j.
(** L387-419 *)
Definition electric_first (e : venv) (i : string) (j : nat) : R :=
  let vx_1 := e v_TAS_cruise j in
  let E_1 := e v_ENERGY j in
  let EP_1 := e v_POWER j in
  if String.eqb i v_POWER then - (- vx_1 * E_1 * 3600 / EP_1 ^ 2)
  else if String.eqb i v_ENERGY then - (vx_1 * 3600 / EP_1)
  else - (E_1 * 3600 / EP_1).
Definition electric_second (e : venv) (i : string) (j : nat) : R :=
  let vx_2 := e v_TAS_cruise (S j) in
  let E_2 := e v_ENERGY (S j) in
  let EP_2 := e v_POWER (S j) in
  if String.eqb i v_POWER then - vx_2 * E_2 * 3600 / EP_2 ^ 2
  else if String.eqb i v_ENERGY then vx_2 * 3600 / EP_2
  else E_2 * 3600 / EP_2.

Definition ElectricRangeComp (nn : nat) : vcomp := {|
  v_ins := [(v_cruise_time_initial, 1%nat); (v_cruise_distance_initial, 1%nat); (v_TAS_cruise, nn); (v_ENERGY, nn); (v_POWER, nn)];
  v_outs := [(v_cruise_time, nn); (v_cruise_range, nn)];
  v_run := cruise_run electric_drange;
  v_jac := cruise_jac nn electric_drange electric_first electric_second |}.

(** ** DistanceComp, simple_cruise_eom.py L8-90 *)
(** The rows, columns and number of entries of the three declarations (L45-70) and the values (L80-90). *)
Definition DistanceComp_jac (nn : nat) (e : venv) (o : string) (k : nat) (i : string) (l : nat) : R :=
  let v_x := e v_TAS_cruise in
  let t := e v_time in
  if String.eqb i v_TAS_cruise then sparse nn (fun p => p) (fun p => p) (fun p => t p - t 0%nat) k l
  else if String.eqb i v_cruise_distance_initial then
    sparse 1 (fun _ => 0%nat) (fun _ => 0%nat) (fun _ => 1) k l
  else if String.eqb i v_time then
    sparse (nn + (nn - 1)) (fun p => if Nat.ltb p nn then p else (p - nn + 1)%nat)
      (fun p => if Nat.ltb p nn then p else 0%nat)
      (fun p => if Nat.eqb p 0 then 0 else if Nat.ltb p nn then v_x p else - v_x (p - nn + 1)%nat) k l
  else 0.

Definition DistanceComp (nn : nat) : vcomp := {|
  v_ins := [(v_time, nn); (v_cruise_distance_initial, 1%nat); (v_TAS_cruise, nn)];
  v_outs := [(v_DISTANCE, nn)];
  v_run := fun e o k => e v_cruise_distance_initial 0%nat + e v_TAS_cruise k * (e v_time k - e v_time 0%nat);
  v_jac := DistanceComp_jac nn |}.

(** ** SpeedConstraints, speed_constraints.py L8-74: the output has shape (nn, 2) *)
Definition SpeedConstraints (nn : nat) (EAS_target mach_target : R) : vcomp := {|
  v_ins := [(v_EAS, nn); (v_MACH, nn)];
  v_outs := [(v_speed_constraint, (nn * 2)%nat)];
  v_run := fun e o p =>
    if Nat.eqb (p mod 2) 0 then e v_EAS (p / 2)%nat - EAS_target else EAS_target * (e v_MACH (p / 2)%nat - mach_target);
  v_jac := fun e o p i l =>
    if String.eqb i v_EAS then sparse nn (fun q => (q * 2)%nat) (fun q => q) (fun _ => 1) p l
    else sparse nn (fun q => (q * 2 + 1)%nat) (fun q => q) (fun _ => EAS_target) p l |}.

(** ** PolynomialFit.apply_nonlinear, polynomial_fit.py L73-111 *)
Record cubic := { a0 : R; a1 : R; a2 : R; a3 : R }.
Definition cubic_at (A : cubic) (x : R) : R := a0 A + a1 A * x + a2 A * x ^ 2 + a3 A * x ^ 3.
(** The four residuals of A over [n] control points, power p of the abscissa being the derivative by coefficient p. *)
Definition fit_residual (n : nat) (X Y : nat -> R) (A : cubic) (p : nat) : R :=
  vsum n (fun j => 2 * (cubic_at A (X j) - Y j) * X j ^ p).
(** The residuals of h_init_gear and h_init_flaps. *)
Definition height_residual (A : cubic) (t h : R) : R := cubic_at A t - h.
