(** Energy-state, takeoff and landing equations of motion: exact partials and mutual consistency. *)
From Coq Require Import Reals Lra Lia.
From Coquelicot Require Import Coquelicot.
From Verif Require Import Base MathModel MathProofs Comp Vec CompMore EomEnergyModel.
Open Scope list_scope.
Local Open Scope R_scope.

(** ** Partials, for any number of nodes *)
Theorem C40_GlideSlopeForces op : exact_nodes GlideSlopeForces_shared (GlideSlopeForces op) (fun e => cos (e
  Dynamic_Vehicle_ANGLE_OF_ATTACK - on op Mission_Takeoff_ANGLE_OF_ATTACK_RUNWAY + on op
  Mission_Takeoff_THRUST_INCIDENCE) <> 0 /\ sin (e Dynamic_Vehicle_ANGLE_OF_ATTACK - on op
  Mission_Takeoff_ANGLE_OF_ATTACK_RUNWAY + on op Mission_Takeoff_THRUST_INCIDENCE) <> 0) [].
Proof. nodes_solve. Qed.
Print Assumptions C40_GlideSlopeForces.
Example C40_witness_GlideSlopeForces :
  let e := upd (upd (fun _ => 0) Dynamic_Vehicle_ANGLE_OF_ATTACK (PI / 4)) Dynamic_Vehicle_MASS 3 in
  let a := e Dynamic_Vehicle_ANGLE_OF_ATTACK - 1 + 1 in
  cos a <> 0 /\ sin a <> 0 /\ out (GlideSlopeForces unit_options) e v_required_thrust = 3 / sin (PI / 4) / 2.
Proof.
  red_comp. cbv [on unit_options]. replace (PI / 4 - 1 + 1) with (PI / 4) by ring.
  assert (0 < cos (PI / 4)) by (rewrite cos_PI4; apply Rdiv_lt_0_compat; [lra|apply Rlt_sqrt2_0]).
  assert (0 < sin (PI / 4)) by (rewrite sin_PI4; apply Rdiv_lt_0_compat; [lra|apply Rlt_sqrt2_0]).
  split; [lra|]. split; [lra|]. rewrite Ropp_0, sin_0, cos_0. field. split; lra.
Qed.

Theorem C40_FlareSumForces op : exact_nodes FlareSumForces_shared (FlareSumForces op) everywhere [].
Proof. nodes_solve. Qed.
Print Assumptions C40_FlareSumForces.
Example C40_witness_FlareSumForces :
  out (FlareSumForces unit_options)
    (upd (upd (fun _ => 0) Dynamic_Vehicle_Propulsion_THRUST_TOTAL 3) Dynamic_Vehicle_DRAG 1) v_forces_horizontal = -2.
Proof.
  red_comp. cbv [on unit_options]. rewrite Ropp_0. replace (0 - 1 + 1 - 0) with 0 by ring. rewrite sin_0, cos_0. ring.
Qed.

Theorem C40_GroundSumForces op : exact_nodes GroundSumForces_shared (GroundSumForces op) (fun e => e
  Dynamic_Vehicle_LIFT - e Dynamic_Vehicle_MASS * on op Mission_GRAVITY <> 0) [].
Proof. nodes_solve. Qed.
Print Assumptions C40_GroundSumForces.
Example C40_witness_GroundSumForces_forces_horizontal : out (GroundSumForces unit_options) (fun _ => 1)
  v_forces_horizontal = 0.
Proof. unit_value. Qed.
Example C40_witness_GroundSumForces_forces_vertical : out (GroundSumForces unit_options) (fun _ => 1)
  v_forces_vertical = 0.
Proof. unit_value. Qed.

Theorem C40_RangeRate op : exact_nodes RangeRate_shared (RangeRate op) (fun e => 0 < e Dynamic_Mission_VELOCITY ^ 2
  - e Dynamic_Mission_ALTITUDE_RATE ^ 2) [].
Proof. nodes_solve. Qed.
Print Assumptions C40_RangeRate.

Theorem C40_RequiredThrust op : exact_nodes RequiredThrust_shared (RequiredThrust op) (positive
  [Dynamic_Mission_VELOCITY]) [].
Proof. nodes_solve. Qed.
Print Assumptions C40_RequiredThrust.
Example C40_witness_RequiredThrust : out (RequiredThrust unit_options) (fun _ => 1) v_thrust_required = 3.
Proof. unit_value. Qed.

Theorem C40_TakeoffStallSpeed op : positive [Mission_GRAVITY] (on op) -> exact_nodes TakeoffStallSpeed_shared
  (TakeoffStallSpeed op) (positive [Dynamic_Vehicle_MASS; Dynamic_Atmosphere_DENSITY; Aircraft_Wing_AREA;
  v_lift_coefficient_max]) [].
Proof. intros Dop. nodes_solve. Qed.
Print Assumptions C40_TakeoffStallSpeed.

Theorem C40_DistanceRates_climbing op : exact_nodes DistanceRates_climbing_shared (DistanceRates_climbing op)
  everywhere [].
Proof. nodes_solve. Qed.
Print Assumptions C40_DistanceRates_climbing.

Theorem C40_DistanceRates_ground op :
  jac_nodes DistanceRates_ground_shared (DistanceRates_ground op) everywhere.
Proof. jac_start; more_goals. Qed.
Print Assumptions C40_DistanceRates_ground.
Example C40_witness_DistanceRates_ground_Mission_DISTANCE_RATE : out (DistanceRates_ground unit_options) (fun _ =>
  1) Dynamic_Mission_DISTANCE_RATE = 1.
Proof. unit_value. Qed.
Example C40_witness_DistanceRates_ground_Mission_ALTITUDE_RATE : out (DistanceRates_ground unit_options) (fun _ =>
  1) Dynamic_Mission_ALTITUDE_RATE = 0.
Proof. unit_value. Qed.

Theorem C40_SumForces_climbing op : exact_nodes SumForces_climbing_shared (SumForces_climbing op) everywhere [].
Proof. nodes_solve. Qed.
Print Assumptions C40_SumForces_climbing.
Example C40_witness_SumForces_climbing :
  out (SumForces_climbing unit_options)
    (upd (upd (fun _ => 0) Dynamic_Vehicle_Propulsion_THRUST_TOTAL 3) Dynamic_Vehicle_DRAG 1) v_forces_horizontal = 2.
Proof.
  red_comp. cbv [on unit_options]. replace (0 - 1 + 1 + 0) with 0 by ring. rewrite sin_0, cos_0. ring.
Qed.

Theorem C40_SumForces_ground op :
  jac_nodes SumForces_ground_shared (SumForces_ground op) everywhere.
Proof. jac_start; more_goals. Qed.
Print Assumptions C40_SumForces_ground.
Example C40_witness_SumForces_ground_forces_vertical : out (SumForces_ground unit_options) (fun _ => 1)
  v_forces_vertical = 0.
Proof. unit_value. Qed.

Theorem C40_Accelerations op : exact_nodes Accelerations_shared (Accelerations op) (positive
  [Dynamic_Vehicle_MASS]) [].
Proof. nodes_solve. Qed.
Print Assumptions C40_Accelerations.
Example C40_witness_Accelerations_acceleration_horizontal : out (Accelerations unit_options) (fun _ => 1)
  v_acceleration_horizontal = 1.
Proof. unit_value. Qed.
Example C40_witness_Accelerations_acceleration_vertical : out (Accelerations unit_options) (fun _ => 1)
  v_acceleration_vertical = 1.
Proof. unit_value. Qed.

Theorem C40_VelocityRate op : exact_nodes VelocityRate_shared (VelocityRate op) (fun e => 0 < e
  Dynamic_Mission_DISTANCE_RATE ^ 2 + e Dynamic_Mission_ALTITUDE_RATE ^ 2) [].
Proof. nodes_solve. Qed.
Print Assumptions C40_VelocityRate.
Example C40_witness_VelocityRate :
  out (VelocityRate unit_options) (upd (upd (fun _ => 1) Dynamic_Mission_DISTANCE_RATE 3) Dynamic_Mission_ALTITUDE_RATE 4)
    Dynamic_Mission_VELOCITY_RATE = 7 / 5.
Proof. red_comp. replace (3 ^ 2 + 4 ^ 2) with (5 ^ 2) by ring. rewrite sqrt_pow2 by lra. field. Qed.

Theorem C40_FlightPathAngleRate op : exact_nodes FlightPathAngleRate_shared (FlightPathAngleRate op) (positive
  [Dynamic_Mission_ALTITUDE_RATE]) [].
Proof. nodes_solve. Qed.
Print Assumptions C40_FlightPathAngleRate.
Example C40_witness_FlightPathAngleRate : out (FlightPathAngleRate unit_options) (fun _ => 1)
  Dynamic_Mission_FLIGHT_PATH_ANGLE_RATE = 0.
Proof. unit_value. Qed.

Theorem C40_ClimbGradientForces op : exact_nodes ClimbGradientForces_shared (ClimbGradientForces op) everywhere [].
Proof. nodes_solve. Qed.
Print Assumptions C40_ClimbGradientForces.

Theorem C40_AltitudeRate op : positive [Mission_GRAVITY] (on op) -> exact_nodes AltitudeRate_shared (AltitudeRate
  op) everywhere [].
Proof. intros Dop. nodes_solve. Qed.
Print Assumptions C40_AltitudeRate.
Example C40_witness_AltitudeRate : out (AltitudeRate unit_options) (fun _ => 1) Dynamic_Mission_ALTITUDE_RATE = 0.
Proof. unit_value. Qed.

Theorem C40_SpecificEnergyRate op : positive [Mission_GRAVITY] (on op) -> exact_nodes SpecificEnergyRate_shared
  (SpecificEnergyRate op) (positive [Dynamic_Vehicle_MASS]) [].
Proof. intros Dop. nodes_solve. Qed.
Print Assumptions C40_SpecificEnergyRate.
Example C40_witness_SpecificEnergyRate : out (SpecificEnergyRate unit_options) (fun _ => 1)
  Dynamic_Mission_SPECIFIC_ENERGY_RATE = 0.
Proof. unit_value. Qed.

(** On the ground two outputs are never assigned: they keep the values they were initialised with. *)
Theorem C40_ground_unassigned op e :
  dget Dynamic_Mission_ALTITUDE_RATE (c_run (DistanceRates_ground op) e) = None /\
  dget v_forces_vertical (c_run (SumForces_ground op) e) = None.
Proof. split; reflexivity. Qed.
Print Assumptions C40_ground_unassigned.

(** ** Consistency of the energy-state equations *)

(** Flying with exactly the required thrust gives back the altitude rate that the required thrust was computed for. *)
Theorem C40_required_thrust_consistent op e :
  e Dynamic_Mission_VELOCITY <> 0 -> e Dynamic_Vehicle_MASS <> 0 -> on op Mission_GRAVITY <> 0 ->
  let T := out (RequiredThrust op) e v_thrust_required in
  let P := out (SpecificEnergyRate op) (upd e Dynamic_Vehicle_Propulsion_THRUST_TOTAL T)
             Dynamic_Mission_SPECIFIC_ENERGY_RATE in
  out (AltitudeRate op) (upd e Dynamic_Mission_SPECIFIC_ENERGY_RATE P) Dynamic_Mission_ALTITUDE_RATE
  = e Dynamic_Mission_ALTITUDE_RATE.
Proof. red_comp. intros V M G. field. auto. Qed.
Print Assumptions C40_required_thrust_consistent.
Example C40_witness_required_thrust_consistent :
  out (RequiredThrust unit_options) (fun _ => 1) v_thrust_required = 3 /\
  out (SpecificEnergyRate unit_options) (upd (fun _ => 1) Dynamic_Vehicle_Propulsion_THRUST_TOTAL 3)
    Dynamic_Mission_SPECIFIC_ENERGY_RATE = 2.
Proof. split; unit_value. Qed.

(** The thrust that holds speed and altitude is the drag, and no other thrust does. *)
Lemma level_thrust v m g d T : v <> 0 -> m <> 0 -> g <> 0 -> (v * (T - d) / (m * g) - v * 0 / g = 0 <-> T = d).
Proof.
  intros V M G. split; [intro H|intros ->; field; auto].
  assert (K : v * (T - d) = 0).
  { replace (v * (T - d)) with ((v * (T - d) / (m * g) - v * 0 / g) * (m * g)) by (field; auto). rewrite H. ring. }
  destruct (Rmult_integral _ _ K); [contradiction|lra].
Qed.
Theorem C40_level_thrust op e T :
  e Dynamic_Mission_VELOCITY <> 0 -> e Dynamic_Vehicle_MASS <> 0 -> on op Mission_GRAVITY <> 0 ->
  e Dynamic_Mission_VELOCITY_RATE = 0 ->
  (out (AltitudeRate op)
     (upd e Dynamic_Mission_SPECIFIC_ENERGY_RATE
        (out (SpecificEnergyRate op) (upd e Dynamic_Vehicle_Propulsion_THRUST_TOTAL T)
           Dynamic_Mission_SPECIFIC_ENERGY_RATE))
     Dynamic_Mission_ALTITUDE_RATE = 0
   <-> T = e Dynamic_Vehicle_DRAG).
Proof. intros V M G A. red_comp. red_comp_in A. rewrite A. exact (level_thrust _ _ _ _ T V M G). Qed.
Print Assumptions C40_level_thrust.
Example C40_witness_level_thrust :
  out (AltitudeRate unit_options) (upd (upd (fun _ => 1) Dynamic_Mission_VELOCITY_RATE 0)
    Dynamic_Mission_SPECIFIC_ENERGY_RATE 0) Dynamic_Mission_ALTITUDE_RATE = 0.
Proof. unit_value. Qed.

(** ** Velocity triangles *)
Theorem C40_range_rate_triangle op e :
  e Dynamic_Mission_ALTITUDE_RATE ^ 2 <= e Dynamic_Mission_VELOCITY ^ 2 ->
  0 <= out (RangeRate op) e Dynamic_Mission_DISTANCE_RATE /\
  out (RangeRate op) e Dynamic_Mission_DISTANCE_RATE ^ 2 + e Dynamic_Mission_ALTITUDE_RATE ^ 2
  = e Dynamic_Mission_VELOCITY ^ 2.
Proof.
  intro H. assert (K : forall v h, h ^ 2 <= v ^ 2 -> 0 <= pw (5 / 10) (v ^ 2 - h ^ 2) /\ pw (5 / 10) (v ^ 2 - h ^ 2) ^ 2 + h ^ 2 = v ^ 2).
  { clear. intros v h H. destruct (Rle_lt_or_eq_dec _ _ H) as [L|E].
    - rewrite (half_up (5 / 10) 1 (v ^ 2 - h ^ 2)) by (solve [lra | inr]). rewrite pow_1. split; [apply sqrt_pos|].
      rewrite pow2_sqrt; lra.
    - replace (v ^ 2 - h ^ 2) with 0 by lra. unfold pw. destruct (Req_EM_T 0 0) as [_|N]; [|contradiction]. destruct (Req_EM_T (5 / 10) 0); split; lra. }
  red_comp. apply K. exact H.
Qed.
Print Assumptions C40_range_rate_triangle.
Example C40_witness_range_rate_triangle :
  out (RangeRate unit_options) (upd (upd (fun _ => 1) Dynamic_Mission_VELOCITY 5) Dynamic_Mission_ALTITUDE_RATE 3)
    Dynamic_Mission_DISTANCE_RATE = 4.
Proof.
  red_comp. replace (5 ^ 2 - 3 ^ 2) with (4 ^ 2) by ring. rewrite (half_up (5 / 10) 1 (4 ^ 2)) by (solve [lra | inr]).
  rewrite pow_1. apply sqrt_pow2. lra.
Qed.

Theorem C40_climb_triangle op e :
  out (DistanceRates_climbing op) e Dynamic_Mission_DISTANCE_RATE ^ 2
  + out (DistanceRates_climbing op) e Dynamic_Mission_ALTITUDE_RATE ^ 2 = e Dynamic_Mission_VELOCITY ^ 2.
Proof.
  red_comp. generalize (e "flight_path_angle") (e "velocity"). intros a v.
  pose proof (sin2_cos2 a) as H. unfold Rsqr in H. transitivity (v ^ 2 * (sin a * sin a + cos a * cos a)); [ring|].
  rewrite H. ring.
Qed.
Print Assumptions C40_climb_triangle.
Example C40_witness_climb_triangle :
  out (DistanceRates_climbing unit_options) (upd (fun _ => 7) Dynamic_Mission_FLIGHT_PATH_ANGLE 0)
    Dynamic_Mission_DISTANCE_RATE = 7.
Proof. red_comp. rewrite cos_0. ring. Qed.

(** ** Newton's law in the two frames *)

(** The accelerations of the takeoff equations in the horizontal and vertical directions, turned into a speed rate and
    a flight path angle rate, are the forces along and across the flight path divided by mass and by momentum. *)
Definition climb_speed_env (op : options) (e : env) : env :=
  let e1 := upd (upd e v_forces_horizontal (out (SumForces_climbing op) e v_forces_horizontal))
                v_forces_vertical (out (SumForces_climbing op) e v_forces_vertical) in
  let e2 := upd (upd e1 v_acceleration_horizontal (out (Accelerations op) e1 v_acceleration_horizontal))
                v_acceleration_vertical (out (Accelerations op) e1 v_acceleration_vertical) in
  upd (upd e2 Dynamic_Mission_DISTANCE_RATE (out (DistanceRates_climbing op) e Dynamic_Mission_DISTANCE_RATE))
      Dynamic_Mission_ALTITUDE_RATE (out (DistanceRates_climbing op) e Dynamic_Mission_ALTITUDE_RATE).
Lemma flight_path_frame v m g t d l a0 i al ga (c := cos ga) (s := sin ga) (an := al - a0 + i + ga) (bn := al - a0 + i) :
  0 < v -> m <> 0 ->
  ((t * cos an - d * c - l * s) / m * (c * v) + (t * sin an - d * s + l * c - m * g) / m * (s * v))
    / sqrt ((c * v) ^ 2 + (s * v) ^ 2) = (- d - m * g * s + t * cos bn) / m /\
  ((t * sin an - d * s + l * c - m * g) / m * (c * v) - (t * cos an - d * c - l * s) / m * (s * v))
    / ((c * v) ^ 2 + (s * v) ^ 2) = (l - m * g * c + t * sin bn) / (m * v).
Proof.
  intros V M. pose proof (sin2_cos2 ga) as H. unfold Rsqr in H. fold c s in H.
  assert (Q : (c * v) ^ 2 + (s * v) ^ 2 = v ^ 2) by (transitivity (v ^ 2 * (s * s + c * c)); [ring|rewrite H; ring]).
  rewrite Q, sqrt_pow2 by lra.
  assert (A : cos an = cos bn * c - sin bn * s) by (unfold an, bn, c, s; rewrite <- cos_plus; reflexivity).
  assert (B : sin an = sin bn * c + cos bn * s) by (unfold an, bn, c, s; rewrite <- sin_plus; reflexivity).
  rewrite A, B. split.
  - transitivity ((t * cos bn * (s * s + c * c) - d * (s * s + c * c) - m * g * s) / m); [field; lra|].
    rewrite H. field. lra.
  - transitivity ((t * sin bn * (s * s + c * c) + l * (s * s + c * c) - m * g * c) / (m * v)); [field; lra|].
    rewrite H. field. lra.
Qed.
Theorem C40_newton_frames op e :
  0 < e Dynamic_Mission_VELOCITY -> e Dynamic_Vehicle_MASS <> 0 ->
  out (VelocityRate op) (climb_speed_env op e) Dynamic_Mission_VELOCITY_RATE
  = out (ClimbGradientForces op) e v_climb_gradient_forces_horizontal / e Dynamic_Vehicle_MASS /\
  out (FlightPathAngleRate op) (climb_speed_env op e) Dynamic_Mission_FLIGHT_PATH_ANGLE_RATE
  = out (ClimbGradientForces op) e v_climb_gradient_forces_vertical
    / (e Dynamic_Vehicle_MASS * e Dynamic_Mission_VELOCITY).
Proof.
  intros V M. unfold climb_speed_env. red_comp. apply flight_path_frame; [exact V|exact M].
Qed.
Print Assumptions C40_newton_frames.
Example C40_witness_newton_frames :
  let e := upd (fun _ => 1) Dynamic_Mission_FLIGHT_PATH_ANGLE 0 in
  out (ClimbGradientForces unit_options) e v_climb_gradient_forces_horizontal = cos 1 - 1.
Proof. red_comp. cbv [on unit_options]. rewrite sin_0. replace (1 - 1 + 1) with 1 by ring. ring. Qed.

(** On the glide slope, when the reported perpendicular force is zero the reported thrust balances the forces along
    and across the flight path. *)
Theorem C40_glide_slope_balance op e :
  let a := e Dynamic_Vehicle_ANGLE_OF_ATTACK - on op Mission_Takeoff_ANGLE_OF_ATTACK_RUNWAY
           + on op Mission_Takeoff_THRUST_INCIDENCE in
  let W := e Dynamic_Vehicle_MASS * on op Mission_GRAVITY in
  let T := out (GlideSlopeForces op) e v_required_thrust in
  cos a <> 0 -> sin a <> 0 -> out (GlideSlopeForces op) e v_forces_perpendicular = 0 ->
  T * cos a = e Dynamic_Vehicle_DRAG + W * sin (e Dynamic_Mission_FLIGHT_PATH_ANGLE) /\
  T * sin a = W * cos (e Dynamic_Mission_FLIGHT_PATH_ANGLE) - e Dynamic_Vehicle_LIFT.
Proof.
  intros a W T C S H. subst T. red_comp_in H. red_comp_in C. red_comp_in S. subst a W. red_comp.
  rewrite cos_neg, sin_neg in *.
  match type of H with ?x - ?y = 0 => assert (E : x = y) by lra; rewrite E end. split.
  - rewrite <- E. field. exact C.
  - field. exact S.
Qed.
Print Assumptions C40_glide_slope_balance.
Example C40_witness_glide_slope_balance :
  let e := upd (upd (fun _ => 0) Dynamic_Vehicle_LIFT 3) Dynamic_Vehicle_MASS 3 in
  out (GlideSlopeForces unit_options) e v_forces_perpendicular = 0.
Proof. red_comp. cbv [on unit_options]. rewrite Ropp_0, cos_0, sin_0. unfold Rdiv. ring. Qed.

(** At the stall speed, the lift at the maximum lift coefficient carries the weight. *)
Theorem C40_stall_lift op e :
  0 < on op Mission_GRAVITY -> positive (c_ins (TakeoffStallSpeed op)) e ->
  1 / 2 * e Dynamic_Atmosphere_DENSITY * out (TakeoffStallSpeed op) e v_stall_speed ^ 2 * e Aircraft_Wing_AREA
    * e v_lift_coefficient_max
  = e Dynamic_Vehicle_MASS * on op Mission_GRAVITY.
Proof.
  intros G D. red_comp_in D. conjuncts. red_comp. red_comp_in G.
  numbers e. numbers (on op). intros.
  rewrite <- (pw_double 1) by (solve [pos | lra]). rewrite pw_id by (solve [pos | lra]). field. repeat split; nonzero.
Qed.
Print Assumptions C40_stall_lift.
Example C40_witness_stall_lift : out (TakeoffStallSpeed unit_options)
  (upd (fun _ => 1) v_lift_coefficient_max (1 / 2)) v_stall_speed = 2.
Proof.
  red_comp. cbv [on unit_options]. replace (2 * (1 * 1) / (1 * 1 * (1 / 2))) with (2 ^ 2) by field.
  rewrite (half_up (5 / 10) 1 (2 ^ 2)) by (solve [lra | inr]). rewrite pow_1. apply sqrt_pow2. lra.
Qed.

(** On the ground the friction force is never negative and acts only while the wheels carry weight. *)
Theorem C40_ground_friction op e :
  0 <= on op v_friction_coefficient ->
  let f := out (GroundSumForces op) e v_forces_horizontal - e Dynamic_Vehicle_DRAG
           + e Dynamic_Vehicle_Propulsion_THRUST_TOTAL in
  0 <= f /\ (out (GroundSumForces op) e v_forces_vertical >= 0 -> f = 0) /\
  (out (GroundSumForces op) e v_forces_vertical < 0 ->
   f = on op v_friction_coefficient * (e Dynamic_Vehicle_MASS * on op Mission_GRAVITY - e Dynamic_Vehicle_LIFT)).
Proof.
  intros M. cbv zeta. assert (K : forall x mu d t, 0 <= mu ->
    let f := (if ltb x 0 then - mu * x else 0) + d - t - d + t in
    0 <= f /\ (x >= 0 -> f = 0) /\ (x < 0 -> f = mu * - x)).
  { clear. intros x mu d t M f. unfold f. destruct (ltb x 0) eqn:E; decided; repeat split; intros; nra. }
  red_comp. destruct (K (e "lift" - e "mass" * on op "mission:gravity") (on op "friction_coefficient") (e "drag")
    (e "thrust_net_total") M) as (A & B & C).
  split; [exact A|]. split; [exact B|]. intro H. rewrite (C H). ring.
Qed.
Print Assumptions C40_ground_friction.
Example C40_witness_ground_friction : out (GroundSumForces unit_options) (upd (fun _ => 1) Dynamic_Vehicle_MASS 5)
  v_forces_horizontal = 4.
Proof. unit_value. Qed.

(** Newton's second law, one axis at a time. *)
Theorem C40_newton_second op e : e Dynamic_Vehicle_MASS <> 0 ->
  e Dynamic_Vehicle_MASS * out (Accelerations op) e v_acceleration_horizontal = e v_forces_horizontal /\
  e Dynamic_Vehicle_MASS * out (Accelerations op) e v_acceleration_vertical = e v_forces_vertical.
Proof. intro M. red_comp. red_comp_in M. split; field; exact M. Qed.
Print Assumptions C40_newton_second.
Example C40_witness_newton_second :
  out (Accelerations unit_options) (upd (upd (fun _ => 1) Dynamic_Vehicle_MASS 2) v_forces_vertical 6) v_acceleration_vertical = 3.
Proof. red_comp. field. Qed.
