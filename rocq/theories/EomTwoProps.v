(** Two-degree-of-freedom equations of motion: exact partials, velocity triangles and equilibria. *)
From Coq Require Import Reals Lra Lia.
From Coquelicot Require Import Coquelicot.
From Verif Require Import Base MathModel MathProofs Comp Vec CompMore EomTwoModel.
Open Scope list_scope.
Local Open Scope R_scope.

(** ** Partials, for any number of nodes *)
Theorem C41_GammaComp op : exact_nodes GammaComp_shared (GammaComp op) everywhere [].
Proof. nodes_solve. Qed.
Print Assumptions C41_GammaComp.
Example C41_witness_GammaComp_dgam_dr : out (GammaComp unit_options) (fun _ => 1) v_dgam_dr = 1 / 2.
Proof. unit_value. Qed.

Theorem C41_GroundrollEOM op : exact_nodes GroundrollEOM_shared (GroundrollEOM op) (fun e => positive
  [Dynamic_Vehicle_MASS] e /\ e Dynamic_Vehicle_MASS * GRAV_ENGLISH_LBM - e Dynamic_Vehicle_LIFT - e
  Dynamic_Vehicle_Propulsion_THRUST_TOTAL * sin ((e Dynamic_Vehicle_ANGLE_OF_ATTACK - e Aircraft_Wing_INCIDENCE) *
  PI / 180) <> 0) [].
Proof. nodes_solve. Qed.
Print Assumptions C41_GroundrollEOM.
Example C41_witness_GroundrollEOM_Mission_FLIGHT_PATH_ANGLE_RATE : out (GroundrollEOM unit_options) (fun _ => 1)
  Dynamic_Mission_FLIGHT_PATH_ANGLE_RATE = 0.
Proof. unit_value. Qed.
Example C41_witness_GroundrollEOM_normal_force :
  out (GroundrollEOM unit_options) (upd (fun _ => 1) Dynamic_Vehicle_MASS 5) v_normal_force = 4.
Proof.
  red_comp. try replace ((1 - 1) * PI / 180) with 0 by field. try replace ((1 - 1) * (PI / 180)) with 0 by field.
  rewrite sin_0. unfold ltb. destruct (Rlt_dec _ 0); cbn; lra.
Qed.

Theorem C41_UnsteadySolvedEOM_flight op : positive [Mission_GRAVITY; v_LBF_TO_N] (on op) -> exact_nodes
  UnsteadySolvedEOM_flight_shared (UnsteadySolvedEOM_flight op) (fun e => positive [Dynamic_Vehicle_MASS;
  Dynamic_Mission_VELOCITY] e /\ cos (e Dynamic_Mission_FLIGHT_PATH_ANGLE) <> 0) [].
Proof. intros Dop. nodes_solve. Qed.
Print Assumptions C41_UnsteadySolvedEOM_flight.
Example C41_witness_UnsteadySolvedEOM_flight_fuselage_pitch : out (UnsteadySolvedEOM_flight unit_options) (fun _ =>
  1) v_fuselage_pitch = 1.
Proof. unit_value. Qed.

Theorem C41_UnsteadySolvedEOM_ground op : positive [Mission_GRAVITY; v_LBF_TO_N] (on op) -> exact_nodes
  UnsteadySolvedEOM_ground_shared (UnsteadySolvedEOM_ground op) (positive [Dynamic_Vehicle_MASS;
  Dynamic_Mission_VELOCITY]) [].
Proof. intros Dop. nodes_solve. Qed.
Print Assumptions C41_UnsteadySolvedEOM_ground.
Example C41_witness_UnsteadySolvedEOM_ground_fuselage_pitch : out (UnsteadySolvedEOM_ground unit_options) (fun _ =>
  1) v_fuselage_pitch = 0.
Proof. unit_value. Qed.

Theorem C41_FlightPathEOM_flight op : exact_nodes FlightPathEOM_flight_shared (FlightPathEOM_flight op) (fun e =>
  positive [Dynamic_Vehicle_MASS; Dynamic_Mission_VELOCITY] e /\ cos (e Dynamic_Mission_FLIGHT_PATH_ANGLE) <> 0)
  [].
Proof. nodes_solve. Qed.
Print Assumptions C41_FlightPathEOM_flight.

Theorem C41_FlightPathEOM_ground op : exact_nodes FlightPathEOM_ground_shared (FlightPathEOM_ground op) (fun e =>
  positive [Dynamic_Vehicle_MASS; Dynamic_Mission_VELOCITY] e /\ cos (e Dynamic_Mission_FLIGHT_PATH_ANGLE) <> 0)
  [].
Proof. nodes_solve. Qed.
Print Assumptions C41_FlightPathEOM_ground.
Example C41_witness_FlightPathEOM_ground :
  out (FlightPathEOM_ground unit_options) (upd (fun _ => 1) Dynamic_Vehicle_MASS 5) v_normal_force = 4.
Proof. red_comp. replace ((1 - 1) * PI / 180) with 0 by field. rewrite sin_0. ring. Qed.

Theorem C41_TakeoffEOM_flight op : exact_nodes TakeoffEOM_flight_shared (TakeoffEOM_flight op) (fun e => positive
  [Dynamic_Vehicle_MASS; Dynamic_Mission_VELOCITY] e /\ e Dynamic_Vehicle_MASS * GRAV_ENGLISH_LBM - e
  Dynamic_Vehicle_LIFT - e Dynamic_Vehicle_Propulsion_THRUST_TOTAL * sin ((e Dynamic_Vehicle_ANGLE_OF_ATTACK - e
  Aircraft_Wing_INCIDENCE) * (PI / 180)) <> 0 /\ cos (e Dynamic_Mission_FLIGHT_PATH_ANGLE) <> 0) [].
Proof. nodes_solve. Qed.
Print Assumptions C41_TakeoffEOM_flight.
Example C41_witness_TakeoffEOM_flight_normal_force : out (TakeoffEOM_flight unit_options) (fun _ => 1)
  v_normal_force = 0.
Proof. unit_value. Qed.
Example C41_witness_TakeoffEOM_flight_angle_of_attack_rate : out (TakeoffEOM_flight unit_options) (fun _ => 1)
  v_angle_of_attack_rate = 0.
Proof. unit_value. Qed.

Theorem C41_TakeoffEOM_ground op : exact_nodes TakeoffEOM_ground_shared (TakeoffEOM_ground op) (fun e => positive
  [Dynamic_Vehicle_MASS; Dynamic_Mission_VELOCITY] e /\ e Dynamic_Vehicle_MASS * GRAV_ENGLISH_LBM - e
  Dynamic_Vehicle_LIFT - e Dynamic_Vehicle_Propulsion_THRUST_TOTAL * sin ((e Aircraft_Wing_INCIDENCE - e
  Aircraft_Wing_INCIDENCE) * (PI / 180)) <> 0 /\ cos (e Dynamic_Mission_FLIGHT_PATH_ANGLE) <> 0) [].
Proof. nodes_solve. Qed.
Print Assumptions C41_TakeoffEOM_ground.
Example C41_witness_TakeoffEOM_ground_Mission_FLIGHT_PATH_ANGLE_RATE : out (TakeoffEOM_ground unit_options) (fun _
  => 1) Dynamic_Mission_FLIGHT_PATH_ANGLE_RATE = 0.
Proof. unit_value. Qed.
Example C41_witness_TakeoffEOM_ground_normal_force :
  out (TakeoffEOM_ground unit_options) (upd (fun _ => 1) Dynamic_Vehicle_MASS 5) v_normal_force = 4.
Proof.
  red_comp. try replace ((1 - 1) * PI / 180) with 0 by field. try replace ((1 - 1) * (PI / 180)) with 0 by field.
  rewrite sin_0. unfold ltb. destruct (Rlt_dec _ 0); cbn; lra.
Qed.

Theorem C41_AccelerationRates op : exact_nodes AccelerationRates_shared (AccelerationRates op) (positive
  [Dynamic_Vehicle_MASS]) [].
Proof. nodes_solve. Qed.
Print Assumptions C41_AccelerationRates.
Example C41_witness_AccelerationRates_Mission_VELOCITY_RATE : out (AccelerationRates unit_options) (fun _ => 1)
  Dynamic_Mission_VELOCITY_RATE = 0.
Proof. unit_value. Qed.
Example C41_witness_AccelerationRates_Mission_DISTANCE_RATE : out (AccelerationRates unit_options) (fun _ => 1)
  Dynamic_Mission_DISTANCE_RATE = 1.
Proof. unit_value. Qed.

Theorem C41_EOMRates op : exact_nodes EOMRates_shared (EOMRates op) (fun e => positive [Dynamic_Vehicle_MASS] e /\
  -1 < (e Dynamic_Vehicle_Propulsion_THRUST_TOTAL - e Dynamic_Vehicle_DRAG) / (e Dynamic_Vehicle_MASS *
  GRAV_ENGLISH_LBM) < 1) [].
Proof. nodes_solve. Qed.
Print Assumptions C41_EOMRates.

Theorem C41_TaxiFuelComponent op : exact_partials (TaxiFuelComponent op) everywhere.
Proof. exact_start; more_goals. Qed.
Print Assumptions C41_TaxiFuelComponent.
Example C41_witness_TaxiFuelComponent_taxi_fuel_consumed : out (TaxiFuelComponent unit_options) (fun _ => 1)
  v_taxi_fuel_consumed = -1.
Proof. unit_value. Qed.
Example C41_witness_TaxiFuelComponent_Vehicle_MASS : out (TaxiFuelComponent unit_options) (fun _ => 1)
  Dynamic_Vehicle_MASS = 2.
Proof. unit_value. Qed.

Theorem C41_VRotateComp op : exact_partials (VRotateComp op) (positive [Aircraft_Wing_AREA; v_CL_max;
  Dynamic_Vehicle_MASS; Dynamic_Atmosphere_DENSITY]).
Proof. exact_start; more_goals. Qed.
Print Assumptions C41_VRotateComp.

Theorem C41_FlightConstraints op : exact_nodes FlightConstraints_shared (FlightConstraints op) (positive
  [Dynamic_Vehicle_MASS; Aircraft_Wing_AREA; Dynamic_Atmosphere_DENSITY; v_CL_max]) [].
Proof. nodes_solve. Qed.
Print Assumptions C41_FlightConstraints.
Example C41_witness_FlightConstraints_theta : out (FlightConstraints unit_options) (fun _ => 1) v_theta = 1.
Proof. unit_value. Qed.

Theorem C41_ClimbAtTopOfClimb op : exact_partials (ClimbAtTopOfClimb op) everywhere.
Proof. exact_start; more_goals. Qed.
Print Assumptions C41_ClimbAtTopOfClimb.
Example C41_witness_ClimbAtTopOfClimb :
  out (ClimbAtTopOfClimb unit_options) (upd (fun _ => 7) Dynamic_Mission_FLIGHT_PATH_ANGLE (PI / 2)) v_ROC = 7.
Proof. red_comp. rewrite sin_PI2. ring. Qed.

(** ** Velocity triangles *)
Lemma triangle v a : (v * cos a) ^ 2 + (v * sin a) ^ 2 = v ^ 2.
Proof.
  pose proof (sin2_cos2 a) as H. unfold Rsqr in H. transitivity (v ^ 2 * (sin a * sin a + cos a * cos a)); [ring|].
  rewrite H. ring.
Qed.
Definition triangle_holds (c : comp) : Prop :=
  forall e, out c e Dynamic_Mission_DISTANCE_RATE ^ 2 + out c e Dynamic_Mission_ALTITUDE_RATE ^ 2
            = e Dynamic_Mission_VELOCITY ^ 2.
Theorem C41_triangles op :
  triangle_holds (FlightPathEOM_flight op) /\ triangle_holds (GroundrollEOM op) /\
  triangle_holds (TakeoffEOM_flight op) /\ triangle_holds (TakeoffEOM_ground op) /\ triangle_holds (EOMRates op).
Proof. repeat split; intro e; red_comp; try destruct (ob op "rotation"); apply triangle. Qed.
Print Assumptions C41_triangles.
Example C41_witness_triangles :
  out (FlightPathEOM_flight unit_options) (upd (fun _ => 7) Dynamic_Mission_FLIGHT_PATH_ANGLE 0)
    Dynamic_Mission_DISTANCE_RATE = 7.
Proof. red_comp. rewrite cos_0. ring. Qed.

(** The climb component: the sine of its flight path angle is the excess thrust over the weight. *)
Theorem C41_climb_angle op e :
  -1 <= (e Dynamic_Vehicle_Propulsion_THRUST_TOTAL - e Dynamic_Vehicle_DRAG)
        / (e Dynamic_Vehicle_MASS * GRAV_ENGLISH_LBM) <= 1 ->
  sin (out (EOMRates op) e Dynamic_Mission_FLIGHT_PATH_ANGLE)
  = (e Dynamic_Vehicle_Propulsion_THRUST_TOTAL - e Dynamic_Vehicle_DRAG)
    / (e Dynamic_Vehicle_MASS * GRAV_ENGLISH_LBM) /\
  - PI / 2 <= out (EOMRates op) e Dynamic_Mission_FLIGHT_PATH_ANGLE <= PI / 2 /\
  out (EOMRates op) e Dynamic_Mission_ALTITUDE_RATE
  = e Dynamic_Mission_VELOCITY * ((e Dynamic_Vehicle_Propulsion_THRUST_TOTAL - e Dynamic_Vehicle_DRAG)
    / (e Dynamic_Vehicle_MASS * GRAV_ENGLISH_LBM)).
Proof.
  intro H. red_comp_in H. red_comp. split; [now apply sin_asin|]. split; [|now rewrite sin_asin].
  pose proof (asin_bound ((e "thrust_net_total" - e "drag") / (e "mass" * 1))). lra.
Qed.
Print Assumptions C41_climb_angle.
Example C41_witness_climb_angle :
  out (EOMRates unit_options) (fun _ => 1) Dynamic_Mission_ALTITUDE_RATE = 0.
Proof. red_comp. replace ((1 - 1) / (1 * 1)) with 0 by field. rewrite asin_0, sin_0. ring. Qed.

(** The steady climb solved by the climb component is an equilibrium of the flight path equations: with the thrust
    along the flight path and the lift that the climb component asks for, neither the speed nor the flight path angle
    changes. *)
Theorem C41_steady_climb op e :
  e Dynamic_Vehicle_MASS <> 0 -> e Dynamic_Mission_VELOCITY <> 0 ->
  -1 <= (e Dynamic_Vehicle_Propulsion_THRUST_TOTAL - e Dynamic_Vehicle_DRAG)
        / (e Dynamic_Vehicle_MASS * GRAV_ENGLISH_LBM) <= 1 ->
  e Dynamic_Vehicle_ANGLE_OF_ATTACK = 0 -> e Aircraft_Wing_INCIDENCE = 0 ->
  let e' := upd (upd e Dynamic_Mission_FLIGHT_PATH_ANGLE (out (EOMRates op) e Dynamic_Mission_FLIGHT_PATH_ANGLE))
                Dynamic_Vehicle_LIFT (out (EOMRates op) e v_required_lift) in
  out (FlightPathEOM_flight op) e' Dynamic_Mission_VELOCITY_RATE = 0 /\
  out (FlightPathEOM_flight op) e' Dynamic_Mission_FLIGHT_PATH_ANGLE_RATE = 0.
Proof.
  intros M V H A I. red_comp_in H. red_comp_in A. red_comp_in I. red_comp_in M. red_comp_in V. red_comp.
  rewrite A, I. replace ((0 - 0) * PI / 180) with 0 by field. rewrite sin_asin by exact H. rewrite sin_0, cos_0.
  numbers e. numbers (on op). intros. split; field; auto.
Qed.
Print Assumptions C41_steady_climb.
Example C41_witness_steady_climb :
  out (FlightPathEOM_flight unit_options)
    (upd (upd (upd (fun _ => 1) Dynamic_Mission_FLIGHT_PATH_ANGLE 0) Dynamic_Vehicle_ANGLE_OF_ATTACK 0)
       Aircraft_Wing_INCIDENCE 0) Dynamic_Mission_VELOCITY_RATE = 0.
Proof. red_comp. replace ((0 - 0) * PI / 180) with 0 by field. rewrite sin_0, cos_0. field. Qed.

(** The wheels never pull: the normal force is not negative, and it is the weight that lift and thrust do not carry. *)
Theorem C41_normal_force op e :
  let n := e Dynamic_Vehicle_MASS * GRAV_ENGLISH_LBM - e Dynamic_Vehicle_LIFT
           - e Dynamic_Vehicle_Propulsion_THRUST_TOTAL
             * sin ((e Dynamic_Vehicle_ANGLE_OF_ATTACK - e Aircraft_Wing_INCIDENCE) * PI / 180) in
  out (GroundrollEOM op) e v_normal_force = Rmax n 0 /\
  (ob op v_rotation = true -> out (TakeoffEOM_flight op) e v_normal_force = Rmax n 0) /\
  (ob op v_rotation = false -> out (TakeoffEOM_flight op) e v_normal_force = 0) /\
  out (TakeoffEOM_ground op) e v_normal_force
  = Rmax (e Dynamic_Vehicle_MASS * GRAV_ENGLISH_LBM - e Dynamic_Vehicle_LIFT) 0.
Proof.
  assert (K : forall x, (if ltb x 0 then 0 else x) = Rmax x 0).
  { intro x. destruct (ltb x 0) eqn:E; decided; unfold Rmax; destruct (Rle_dec x 0); lra. }
  repeat split; [red_comp; apply K| | |].
  - intro H. red_comp_in H. red_comp. rewrite H. rewrite K. f_equal. f_equal. f_equal. f_equal. field.
  - intro H. red_comp_in H. red_comp. now rewrite H.
  - red_comp. rewrite K. replace ((e "aircraft:wing:incidence" - e "aircraft:wing:incidence") * (PI / 180)) with 0 by field.
    rewrite sin_0. f_equal. ring.
Qed.
Print Assumptions C41_normal_force.
Example C41_witness_normal_force :
  out (GroundrollEOM unit_options) (upd (fun _ => 1) Dynamic_Vehicle_MASS 5) v_normal_force = 4.
Proof.
  red_comp. replace ((1 - 1) * PI / 180) with 0 by field. rewrite sin_0. branches; decided; lra.
Qed.

(** The unsteady equations solve the same motion as the flight path equations: with angles in the units of each
    component and one weight unit, both give the same speed rate, flight path angle rate, normal force, load factor, and
    the distance derivative is the reciprocal of the distance rate. *)
Definition in_degrees (e : env) : env :=
  upd (upd e Dynamic_Vehicle_ANGLE_OF_ATTACK (e Dynamic_Vehicle_ANGLE_OF_ATTACK * 180 / PI))
      Aircraft_Wing_INCIDENCE (e Aircraft_Wing_INCIDENCE * 180 / PI).
Theorem C41_unsteady_agrees op e :
  on op v_LBF_TO_N = 1 -> on op Mission_GRAVITY <> 0 -> e Dynamic_Vehicle_MASS <> 0 ->
  e Dynamic_Mission_VELOCITY <> 0 -> cos (e Dynamic_Mission_FLIGHT_PATH_ANGLE) <> 0 ->
  let u o := out (UnsteadySolvedEOM_flight op) e o in
  let f o := out (FlightPathEOM_flight op) (in_degrees e) o in
  u v_dTAS_dt = f Dynamic_Mission_VELOCITY_RATE /\ u v_dgam_dt = f Dynamic_Mission_FLIGHT_PATH_ANGLE_RATE /\
  u v_normal_force = f v_normal_force /\ u v_load_factor = f v_load_factor /\
  u v_dt_dr = 1 / f Dynamic_Mission_DISTANCE_RATE.
Proof.
  intros L G M V C. red_comp_in L. red_comp_in G. red_comp_in M. red_comp_in V. red_comp_in C. unfold in_degrees.
  red_comp. rewrite L.
  replace ((e "angle_of_attack" * 180 / PI - e "aircraft:wing:incidence" * 180 / PI) * PI / 180)
    with (e "angle_of_attack" - e "aircraft:wing:incidence") by (field; apply PI_neq0).
  numbers e. numbers (on op). intros. repeat split; try (field; auto); ring.
Qed.
Print Assumptions C41_unsteady_agrees.
Example C41_witness_unsteady_agrees :
  out (UnsteadySolvedEOM_flight unit_options) (upd (fun _ => 1) Dynamic_Mission_FLIGHT_PATH_ANGLE 0) v_dTAS_dt = 0.
Proof. red_comp. cbv [on unit_options]. replace (1 - 1) with 0 by ring. rewrite !sin_0, !cos_0. field. Qed.

(** The flight path angle and its derivative along the track are those of a track with slope [dh_dr]. *)
Theorem C41_track_angle op (h' : R -> R) (r h'' : R) :
  is_derive h' r h'' ->
  let e := upd (upd (fun _ => 0) v_dh_dr (h' r)) v_d2h_dr2 h'' in
  tan (out (GammaComp op) e Dynamic_Mission_FLIGHT_PATH_ANGLE) = h' r /\
  is_derive (fun s => out (GammaComp op) (upd (upd (fun _ => 0) v_dh_dr (h' s)) v_d2h_dr2 h'')
                        Dynamic_Mission_FLIGHT_PATH_ANGLE) r
    (out (GammaComp op) e v_dgam_dr).
Proof.
  intros D. red_comp. split; [apply tan_atan|].
  assert (K : is_derive (fun s => atan (h' s)) r (h'' * / (1 + (h' r) ^ 2))).
  { evar_last. apply (is_derive_comp atan h'). apply is_derive_Reals, derivable_pt_lim_atan. exact D.
    unfold scal. cbn. unfold mult. cbn. unfold Rsqr. field. nra. }
  replace (h'' / (h' r ^ 2 + 1)) with (h'' * / (1 + h' r ^ 2)) by (unfold Rdiv; f_equal; f_equal; ring).
  exact K.
Qed.
Print Assumptions C41_track_angle.
Example C41_witness_track_angle :
  out (GammaComp unit_options) (upd (upd (fun _ => 0) v_dh_dr 1) v_d2h_dr2 6) v_dgam_dr = 3.
Proof. red_comp. field. Qed.

(** Taxi: mass at the end of taxi plus the fuel burnt is the gross mass. *)
Theorem C41_taxi_conserves op e :
  out (TaxiFuelComponent op) e Dynamic_Vehicle_MASS + out (TaxiFuelComponent op) e v_taxi_fuel_consumed
  = e Mission_GROSS_MASS.
Proof. red_comp. ring. Qed.
Print Assumptions C41_taxi_conserves.
Example C41_witness_taxi_conserves :
  out (TaxiFuelComponent unit_options) (upd (fun _ => 100)
    Dynamic_Vehicle_Propulsion_FUEL_MASS_FLOW_RATE_NEGATIVE_TOTAL (-7)) v_taxi_fuel_consumed = 7.
Proof. unit_value. Qed.

(** The minimum speed of the flight constraints is 1.1 times the speed where maximum lift carries the weight, and the
    violation is positive exactly below it. *)
Theorem C41_minimum_speed op e :
  positive [Dynamic_Vehicle_MASS; Aircraft_Wing_AREA; Dynamic_Atmosphere_DENSITY; v_CL_max] e ->
  let V := out (FlightConstraints op) e v_TAS_min / (11 / 10) in
  1 / 2 * e Dynamic_Atmosphere_DENSITY * V ^ 2 * e Aircraft_Wing_AREA * e v_CL_max
  = e Dynamic_Vehicle_MASS * GRAV_ENGLISH_LBM /\
  (0 < out (FlightConstraints op) e v_TAS_violation <->
   e Dynamic_Mission_VELOCITY < out (FlightConstraints op) e v_TAS_min).
Proof.
  intros D V. red_comp_in D. conjuncts. split; [|red_comp; split; intro; lra]. subst V. red_comp. numbers e. intros.
  match goal with |- context [11 / 10 * ?x / (11 / 10)] => replace (11 / 10 * x / (11 / 10)) with x by field end.
  rewrite <- (pw_double 1) by (solve [pos | lra]). rewrite pw_id by (solve [pos | lra]). field. repeat split; nonzero.
Qed.
Print Assumptions C41_minimum_speed.
Example C41_witness_minimum_speed :
  out (FlightConstraints unit_options) (upd (fun _ => 1) v_CL_max (1 / 2)) v_TAS_min = 22 / 10.
Proof.
  red_comp. replace (2 * (1 * 1) / (1 * 1 * (1 / 2))) with (2 ^ 2) by field.
  rewrite (half_up (5 / 10) 1 (2 ^ 2)) by (solve [lra | inr]). rewrite pow_1, sqrt_pow2 by lra. field.
Qed.

(** The rotation speed without margins is the stall speed. *)
Theorem C41_rotation_speed op e :
  positive [Dynamic_Vehicle_MASS; Aircraft_Wing_AREA; Dynamic_Atmosphere_DENSITY; v_CL_max] e ->
  let V := out (VRotateComp op) e v_Vrot - e v_dV1 - e v_dVR in
  0 < V /\ 1 / 2 * e Dynamic_Atmosphere_DENSITY * V ^ 2 * e Aircraft_Wing_AREA * e v_CL_max
  = e Dynamic_Vehicle_MASS * GRAV_ENGLISH_LBM.
Proof.
  intros D V. red_comp_in D. conjuncts. subst V. red_comp. numbers e. intros.
  match goal with |- 0 < ?x + ?a + ?b - ?a - ?b /\ _ => replace (x + a + b - a - b) with x by ring end.
  split; [pos|].
  rewrite <- (pw_double 1) by (solve [pos | lra]). rewrite pw_id by (solve [pos | lra]). field. repeat split; nonzero.
Qed.
Print Assumptions C41_rotation_speed.
Example C41_witness_rotation_speed :
  out (VRotateComp unit_options) (upd (fun _ => 1) v_CL_max (1 / 2)) v_Vrot = 4.
Proof.
  red_comp. replace (2 * 1 * 1 / (1 * 1 * (1 / 2))) with (2 ^ 2) by field.
  rewrite (half_up (5 / 10) 1 (2 ^ 2)) by (solve [lra | inr]). rewrite pow_1, sqrt_pow2 by lra. field.
Qed.
