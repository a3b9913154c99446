(** Flight conditions: conversions between airspeeds and Mach number, steady and unsteady. *)
From Coq Require Import Reals Lra Lia.
From Coquelicot Require Import Coquelicot.
From Verif Require Import Base MathModel MathProofs Comp Vec CompMore EomCondModel.
Open Scope list_scope.
Local Open Scope R_scope.

(** ** Partials, for any number of nodes *)

(** Pairs of the unsteady component that are declared and never assigned, and pairs that are not declared. *)
Definition eas_pairs := [(v_dTAS_dt_approx, Dynamic_Atmosphere_DENSITY); (v_dTAS_dt_approx, v_EAS)].
Definition mach_pairs := [(v_dTAS_dt_approx, Dynamic_Atmosphere_SPEED_OF_SOUND);
  (v_dTAS_dt_approx, Dynamic_Atmosphere_MACH)].

Theorem C52_UnsteadyConditions_TAS_flight op : positive [Mission_SEA_LEVEL_DENSITY] (on op) -> exact_nodes
  UnsteadyConditions_TAS_flight_shared (UnsteadyConditions_TAS_flight op) (positive [Dynamic_Atmosphere_DENSITY;
  Dynamic_Atmosphere_SPEED_OF_SOUND]) [].
Proof. intros Dop. nodes_solve. Qed.
Print Assumptions C52_UnsteadyConditions_TAS_flight.
Example C52_witness_UnsteadyConditions_TAS_flight_Atmosphere_DYNAMIC_PRESSURE : out (UnsteadyConditions_TAS_flight
  unit_options) (fun _ => 1) Dynamic_Atmosphere_DYNAMIC_PRESSURE = 1 / 2.
Proof. unit_value. Qed.
Example C52_witness_UnsteadyConditions_TAS_flight_Atmosphere_MACH : out (UnsteadyConditions_TAS_flight
  unit_options) (fun _ => 1) Dynamic_Atmosphere_MACH = 1.
Proof. unit_value. Qed.

Theorem C52_UnsteadyConditions_TAS_ground op : positive [Mission_SEA_LEVEL_DENSITY] (on op) -> exact_nodes
  UnsteadyConditions_TAS_ground_shared (UnsteadyConditions_TAS_ground op) (positive [Dynamic_Atmosphere_DENSITY;
  Dynamic_Atmosphere_SPEED_OF_SOUND]) [].
Proof. intros Dop. nodes_solve. Qed.
Print Assumptions C52_UnsteadyConditions_TAS_ground.
Example C52_witness_UnsteadyConditions_TAS_ground_Atmosphere_DYNAMIC_PRESSURE : out (UnsteadyConditions_TAS_ground
  unit_options) (fun _ => 1) Dynamic_Atmosphere_DYNAMIC_PRESSURE = 1 / 2.
Proof. unit_value. Qed.
Example C52_witness_UnsteadyConditions_TAS_ground_dTAS_dt_approx : out (UnsteadyConditions_TAS_ground unit_options)
  (fun _ => 1) v_dTAS_dt_approx = 1.
Proof. unit_value. Qed.

Theorem C34_FlightConditions_TAS op : positive [Mission_SEA_LEVEL_DENSITY] (on op) -> exact_nodes
  FlightConditions_TAS_shared (FlightConditions_TAS op) (positive [Dynamic_Atmosphere_DENSITY;
  Dynamic_Atmosphere_SPEED_OF_SOUND]) [].
Proof. intros Dop. nodes_solve. Qed.
Print Assumptions C34_FlightConditions_TAS.
Example C34_witness_FlightConditions_TAS_Atmosphere_DYNAMIC_PRESSURE : out (FlightConditions_TAS unit_options) (fun
  _ => 1) Dynamic_Atmosphere_DYNAMIC_PRESSURE = 1 / 2.
Proof. unit_value. Qed.
Example C34_witness_FlightConditions_TAS_EAS : out (FlightConditions_TAS unit_options) (fun _ => 1) v_EAS = 1.
Proof. unit_value. Qed.

Theorem C52_UnsteadyConditions_EAS_flight op : positive [Mission_SEA_LEVEL_DENSITY] (on op) ->
  exact_nodes UnsteadyConditions_EAS_flight_shared (UnsteadyConditions_EAS_flight op)
    (positive [Dynamic_Atmosphere_DENSITY; Dynamic_Atmosphere_SPEED_OF_SOUND]) eas_pairs.
Proof. intros Dop. nodes_except_solve. Qed.
Print Assumptions C52_UnsteadyConditions_EAS_flight.

Theorem C52_UnsteadyConditions_EAS_ground op : positive [Mission_SEA_LEVEL_DENSITY] (on op) ->
  exact_nodes UnsteadyConditions_EAS_ground_shared (UnsteadyConditions_EAS_ground op)
    (positive [Dynamic_Atmosphere_DENSITY; Dynamic_Atmosphere_SPEED_OF_SOUND]) eas_pairs.
Proof. intros Dop. nodes_except_solve. Qed.
Print Assumptions C52_UnsteadyConditions_EAS_ground.

Theorem C34_FlightConditions_EAS op : positive [Mission_SEA_LEVEL_DENSITY] (on op) -> exact_nodes
  FlightConditions_EAS_shared (FlightConditions_EAS op) (positive [Dynamic_Atmosphere_DENSITY;
  Dynamic_Atmosphere_SPEED_OF_SOUND]) [].
Proof. intros Dop. nodes_solve. Qed.
Print Assumptions C34_FlightConditions_EAS.
Example C34_witness_FlightConditions_EAS_Atmosphere_DYNAMIC_PRESSURE : out (FlightConditions_EAS unit_options) (fun
  _ => 1) Dynamic_Atmosphere_DYNAMIC_PRESSURE = 1 / 2.
Proof. unit_value. Qed.
Example C34_witness_FlightConditions_EAS_Mission_VELOCITY : out (FlightConditions_EAS unit_options) (fun _ => 1)
  Dynamic_Mission_VELOCITY = 1.
Proof. unit_value. Qed.

Theorem C52_UnsteadyConditions_MACH_flight op : positive [Mission_SEA_LEVEL_DENSITY] (on op) ->
  exact_nodes UnsteadyConditions_MACH_flight_shared (UnsteadyConditions_MACH_flight op)
    (positive [Dynamic_Atmosphere_DENSITY; Dynamic_Atmosphere_SPEED_OF_SOUND]) mach_pairs.
Proof. intros Dop. nodes_except_solve. Qed.
Print Assumptions C52_UnsteadyConditions_MACH_flight.
Example C52_witness_UnsteadyConditions_MACH_flight_Atmosphere_DYNAMIC_PRESSURE : out
  (UnsteadyConditions_MACH_flight unit_options) (fun _ => 1) Dynamic_Atmosphere_DYNAMIC_PRESSURE = 1 / 2.
Proof. unit_value. Qed.
Example C52_witness_UnsteadyConditions_MACH_flight_Mission_VELOCITY : out (UnsteadyConditions_MACH_flight
  unit_options) (fun _ => 1) Dynamic_Mission_VELOCITY = 1.
Proof. unit_value. Qed.

Theorem C52_UnsteadyConditions_MACH_ground op : positive [Mission_SEA_LEVEL_DENSITY] (on op) ->
  exact_nodes UnsteadyConditions_MACH_ground_shared (UnsteadyConditions_MACH_ground op)
    (positive [Dynamic_Atmosphere_DENSITY; Dynamic_Atmosphere_SPEED_OF_SOUND]) mach_pairs.
Proof. intros Dop. nodes_except_solve. Qed.
Print Assumptions C52_UnsteadyConditions_MACH_ground.
Example C52_witness_UnsteadyConditions_MACH_ground_Atmosphere_DYNAMIC_PRESSURE : out
  (UnsteadyConditions_MACH_ground unit_options) (fun _ => 1) Dynamic_Atmosphere_DYNAMIC_PRESSURE = 1 / 2.
Proof. unit_value. Qed.
Example C52_witness_UnsteadyConditions_MACH_ground_dTAS_dt_approx : out (UnsteadyConditions_MACH_ground
  unit_options) (fun _ => 1) v_dTAS_dt_approx = 1.
Proof. unit_value. Qed.

Theorem C34_FlightConditions_MACH op : positive [Mission_SEA_LEVEL_DENSITY] (on op) -> exact_nodes
  FlightConditions_MACH_shared (FlightConditions_MACH op) (positive [Dynamic_Atmosphere_DENSITY]) [].
Proof. intros Dop. nodes_solve. Qed.
Print Assumptions C34_FlightConditions_MACH.
Example C34_witness_FlightConditions_MACH_Atmosphere_DYNAMIC_PRESSURE : out (FlightConditions_MACH unit_options)
  (fun _ => 1) Dynamic_Atmosphere_DYNAMIC_PRESSURE = 1 / 2.
Proof. unit_value. Qed.
Example C34_witness_FlightConditions_MACH_EAS : out (FlightConditions_MACH unit_options) (fun _ => 1) v_EAS = 1.
Proof. unit_value. Qed.

Definition level : env := upd (fun _ => 1) Dynamic_Mission_FLIGHT_PATH_ANGLE 0.
(** The entry is zero although the output depends on the input. *)
Lemma zero_entry c e o i l : l <> 0 -> is_derive (fun t => out c (upd e i t) o) (e i) l -> jac c e o i = 0 -> ~ exact_at c e o i.
Proof.
  intros N D Z E. unfold exact_at in E. apply is_derive_unique in D. apply is_derive_unique in E. rewrite Z in E.
  congruence.
Qed.
Theorem C52_partials_refuted op : on op Mission_SEA_LEVEL_DENSITY = 1 ->
  ~ exact_at (UnsteadyConditions_EAS_flight op) level v_dTAS_dt_approx v_EAS /\
  ~ exact_at (UnsteadyConditions_EAS_flight op) level v_dTAS_dt_approx Dynamic_Atmosphere_DENSITY /\
  ~ exact_at (UnsteadyConditions_EAS_ground op) level v_dTAS_dt_approx v_EAS /\
  ~ exact_at (UnsteadyConditions_EAS_ground op) level v_dTAS_dt_approx Dynamic_Atmosphere_DENSITY /\
  ~ exact_at (UnsteadyConditions_MACH_flight op) level v_dTAS_dt_approx Dynamic_Atmosphere_MACH /\
  ~ exact_at (UnsteadyConditions_MACH_flight op) level v_dTAS_dt_approx Dynamic_Atmosphere_SPEED_OF_SOUND /\
  ~ exact_at (UnsteadyConditions_MACH_ground op) level v_dTAS_dt_approx Dynamic_Atmosphere_MACH /\
  ~ exact_at (UnsteadyConditions_MACH_ground op) level v_dTAS_dt_approx Dynamic_Atmosphere_SPEED_OF_SOUND.
Proof.
  intro H. red_comp_in H. unfold level.
  Ltac refute H l :=
    eapply (zero_entry _ _ _ _ l); [lra| |reflexivity]; red_comp; rewrite ?H;
    auto_derive; [cbn; rewrite ?sqrt_1; repeat split; try pos; try (minus_div; nonzero); try lra
                 |cbn; unfold Rdiv; rewrite ?cos_0, ?sin_0, ?Rmult_1_r, ?Rmult_1_l, ?Rinv_1, ?sqrt_1, ?pw_1; field].
  split; [refute H 1|]. split; [refute H (-2)|]. split; [refute H 1|]. split; [refute H (-2)|].
  split; [refute H 1|]. split; [refute H 2|]. split; [refute H 1|]. refute H 2.
Qed.
Print Assumptions C52_partials_refuted.

(** ** The three conversions describe one state *)
Definition air (op : options) (e : env) : Prop :=
  0 < on op Mission_SEA_LEVEL_DENSITY /\ 0 < e Dynamic_Atmosphere_DENSITY /\ 0 < e Dynamic_Atmosphere_SPEED_OF_SOUND.

Lemma root_nonzero r s : 0 < r -> 0 < s -> pw (5 / 10) (r / s) <> 0.
Proof. intros. apply Rgt_not_eq, pw_pos. now apply Rdiv_lt_0_compat. Qed.
Lemma root_sq r s : 0 < r -> 0 < s -> pw (5 / 10) (r / s) ^ 2 = r / s.
Proof.
  intros. rewrite <- (pw_double 1) by (solve [now apply Rdiv_lt_0_compat | lra]).
  apply pw_id; [now apply Rdiv_lt_0_compat|reflexivity].
Qed.

(** True airspeed to equivalent airspeed and back. *)
Theorem C34_tas_eas_tas op e :
  air op e ->
  let e' := upd e v_EAS (out (FlightConditions_TAS op) e v_EAS) in
  out (FlightConditions_EAS op) e' Dynamic_Mission_VELOCITY = e Dynamic_Mission_VELOCITY /\
  out (FlightConditions_EAS op) e' Dynamic_Atmosphere_MACH
  = out (FlightConditions_TAS op) e Dynamic_Atmosphere_MACH /\
  out (FlightConditions_EAS op) e' Dynamic_Atmosphere_DYNAMIC_PRESSURE
  = out (FlightConditions_TAS op) e Dynamic_Atmosphere_DYNAMIC_PRESSURE.
Proof.
  intros (A & B & C). red_comp_in A. red_comp_in B. red_comp_in C. red_comp.
  pose proof (root_nonzero _ _ B A) as N. pose proof (root_sq _ _ B A) as S.
  revert N S. generalize (pw (5 / 10) (e "density" / on op "mission:sea_level_density")). intros x N S.
  split; [field; exact N|]. split; [field; split; [lra|exact N]|].
  transitivity (5 / 10 * (e "velocity" ^ 2 * x ^ 2) * on op "mission:sea_level_density"); [ring|]. rewrite S. field. lra.
Qed.
Print Assumptions C34_tas_eas_tas.

(** Equivalent airspeed to true airspeed and back. *)
Theorem C34_eas_tas_eas op e :
  air op e ->
  let e' := upd e Dynamic_Mission_VELOCITY (out (FlightConditions_EAS op) e Dynamic_Mission_VELOCITY) in
  out (FlightConditions_TAS op) e' v_EAS = e v_EAS /\
  out (FlightConditions_TAS op) e' Dynamic_Atmosphere_MACH
  = out (FlightConditions_EAS op) e Dynamic_Atmosphere_MACH /\
  out (FlightConditions_TAS op) e' Dynamic_Atmosphere_DYNAMIC_PRESSURE
  = out (FlightConditions_EAS op) e Dynamic_Atmosphere_DYNAMIC_PRESSURE.
Proof.
  intros (A & B & C). red_comp_in A. red_comp_in B. red_comp_in C. red_comp.
  pose proof (root_nonzero _ _ B A) as N. pose proof (root_sq _ _ B A) as S.
  revert N S. generalize (pw (5 / 10) (e "density" / on op "mission:sea_level_density")). intros x N S.
  split; [field; exact N|]. split; [reflexivity|].
  transitivity (5 / 10 * e "density" * (e "EAS" ^ 2 / x ^ 2)); [field; exact N|]. rewrite S. field. lra.
Qed.
Print Assumptions C34_eas_tas_eas.

(** True airspeed to Mach number and back. *)
Theorem C34_tas_mach_tas op e :
  air op e ->
  let e' := upd e Dynamic_Atmosphere_MACH (out (FlightConditions_TAS op) e Dynamic_Atmosphere_MACH) in
  out (FlightConditions_MACH op) e' Dynamic_Mission_VELOCITY = e Dynamic_Mission_VELOCITY /\
  out (FlightConditions_MACH op) e' v_EAS = out (FlightConditions_TAS op) e v_EAS /\
  out (FlightConditions_MACH op) e' Dynamic_Atmosphere_DYNAMIC_PRESSURE
  = out (FlightConditions_TAS op) e Dynamic_Atmosphere_DYNAMIC_PRESSURE.
Proof.
  intros (A & B & C). red_comp_in A. red_comp_in B. red_comp_in C. red_comp. repeat split; field; lra.
Qed.
Print Assumptions C34_tas_mach_tas.

(** Mach number to true airspeed and back. *)
Theorem C34_mach_tas_mach op e :
  air op e ->
  let e' := upd e Dynamic_Mission_VELOCITY (out (FlightConditions_MACH op) e Dynamic_Mission_VELOCITY) in
  out (FlightConditions_TAS op) e' Dynamic_Atmosphere_MACH = e Dynamic_Atmosphere_MACH /\
  out (FlightConditions_TAS op) e' v_EAS = out (FlightConditions_MACH op) e v_EAS /\
  out (FlightConditions_TAS op) e' Dynamic_Atmosphere_DYNAMIC_PRESSURE
  = out (FlightConditions_MACH op) e Dynamic_Atmosphere_DYNAMIC_PRESSURE.
Proof.
  intros (A & B & C). red_comp_in A. red_comp_in B. red_comp_in C. red_comp. repeat split; field; lra.
Qed.
Print Assumptions C34_mach_tas_mach.
(** Standard sea level: density equal to the sea level density gives equal airspeeds. *)
Theorem C34_sea_level op e :
  air op e -> e Dynamic_Atmosphere_DENSITY = on op Mission_SEA_LEVEL_DENSITY ->
  out (FlightConditions_TAS op) e v_EAS = e Dynamic_Mission_VELOCITY.
Proof.
  intros (A & B & C) H. red_comp_in A. red_comp_in B. red_comp_in H. red_comp. rewrite H.
  unfold Rdiv. rewrite Rinv_r by lra. rewrite pw_1. ring.
Qed.
Print Assumptions C34_sea_level.
Definition std : options := {| on := fun _ => 4; ob := fun _ => false; oe := fun _ => ""%string |}.
Example C34_witness_conversions :
  let e := upd (upd (fun _ => 6) Dynamic_Atmosphere_DENSITY 1) Dynamic_Atmosphere_SPEED_OF_SOUND 2 in
  out (FlightConditions_TAS std) e v_EAS = 3 /\ out (FlightConditions_TAS std) e Dynamic_Atmosphere_MACH = 3 /\
  out (FlightConditions_EAS std) e Dynamic_Mission_VELOCITY = 12.
Proof.
  red_comp. cbv [on std].
  assert (E : pw (5 / 10) (1 / 4) = 1 / 2).
  { rewrite (half_up (5 / 10) 1 (1 / 4)) by (solve [lra | inr]). rewrite pow_1. replace (1 / 4) with ((1 / 2) ^ 2) by field.
    apply sqrt_pow2. lra. }
  rewrite E. repeat split; field.
Qed.

(** ** Unsteady flight conditions *)

(** The unsteady component, in each of its three modes and on the ground as in flight, agrees with the steady one. *)
Theorem C52_agrees_with_steady op e :
  air op e ->
  (forall c, c = UnsteadyConditions_TAS_flight op \/ c = UnsteadyConditions_TAS_ground op ->
   out c e v_EAS = out (FlightConditions_TAS op) e v_EAS /\
   out c e Dynamic_Atmosphere_MACH = out (FlightConditions_TAS op) e Dynamic_Atmosphere_MACH /\
   out c e Dynamic_Atmosphere_DYNAMIC_PRESSURE = out (FlightConditions_TAS op) e Dynamic_Atmosphere_DYNAMIC_PRESSURE) /\
  (forall c, c = UnsteadyConditions_EAS_flight op \/ c = UnsteadyConditions_EAS_ground op ->
   out c e Dynamic_Mission_VELOCITY = out (FlightConditions_EAS op) e Dynamic_Mission_VELOCITY /\
   out c e Dynamic_Atmosphere_MACH = out (FlightConditions_EAS op) e Dynamic_Atmosphere_MACH /\
   out c e Dynamic_Atmosphere_DYNAMIC_PRESSURE = out (FlightConditions_EAS op) e Dynamic_Atmosphere_DYNAMIC_PRESSURE) /\
  (forall c, c = UnsteadyConditions_MACH_flight op \/ c = UnsteadyConditions_MACH_ground op ->
   out c e Dynamic_Mission_VELOCITY = out (FlightConditions_MACH op) e Dynamic_Mission_VELOCITY /\
   out c e v_EAS = out (FlightConditions_MACH op) e v_EAS /\
   out c e Dynamic_Atmosphere_DYNAMIC_PRESSURE = out (FlightConditions_MACH op) e Dynamic_Atmosphere_DYNAMIC_PRESSURE).
Proof.
  intros (A & B & C). red_comp_in A. red_comp_in B. red_comp_in C.
  assert (E : sqrt (e "density" / on op "mission:sea_level_density")
              = pw (5 / 10) (e "density" / on op "mission:sea_level_density")).
  { rewrite (half_up (5 / 10) 1) by (solve [now apply Rdiv_lt_0_compat | inr]). ring. }
  pose proof (root_nonzero _ _ B A) as N. pose proof (root_sq _ _ B A) as S.
  repeat split; intros; destruct H as [-> | ->]; red_comp; rewrite ?E; try reflexivity; try (field; lra).
  all: revert N S; generalize (pw (5 / 10) (e "density" / on op "mission:sea_level_density")); intros x N S.
  all: try ring.
  all: transitivity (5 / 10 * e "density" * (e "EAS" ^ 2 / x ^ 2)); [field; exact N|]; rewrite S; field; lra.
Qed.
Print Assumptions C52_agrees_with_steady.

(** Mach mode in flight: along a motion with speed of sound [a] depending on height [h] and Mach number [m] depending
    on distance [r], the reported rate is the time derivative of the true airspeed. *)
Theorem C52_mach_rate op (m a h r : R -> R) (t m' a' ga : R) :
  a (h t) <> 0 ->
  let v := m (r t) * a (h t) in
  is_derive m (r t) m' -> is_derive a (h t) a' ->
  is_derive r t (v * cos ga) -> is_derive h t (v * sin ga) ->
  let e := upd (upd (upd (upd (upd (fun _ => 1) Dynamic_Atmosphere_MACH (m (r t))) Dynamic_Atmosphere_SPEED_OF_SOUND
             (a (h t))) v_dmach_dr m') v_dsos_dh a') Dynamic_Mission_FLIGHT_PATH_ANGLE ga in
  is_derive (fun s => m (r s) * a (h s)) t (out (UnsteadyConditions_MACH_flight op) e v_dTAS_dt_approx).
Proof.
  intros Z v M A Rr Hh e.
  assert (K : is_derive (fun s => m (r s) * a (h s)) t (v * cos ga * m' * a (h t) + m (r t) * (v * sin ga * a'))).
  { apply (is_derive_mult (fun s => m (r s)) (fun s => a (h s)) t).
    - apply (is_derive_comp m r); assumption.
    - apply (is_derive_comp a h); assumption.
    - intros x y. apply Rmult_comm. }
  evar_last; [exact K|]. subst e v. red_comp. field. exact Z.
Qed.
Print Assumptions C52_mach_rate.
Example C52_witness_mach_rate :
  out (UnsteadyConditions_MACH_flight unit_options) (upd (fun _ => 1) Dynamic_Mission_FLIGHT_PATH_ANGLE 0)
    v_dTAS_dt_approx = 1.
Proof. red_comp. rewrite sin_0, cos_0. field. Qed.

(** True airspeed mode: the reported rate is the time derivative along the track. *)
Theorem C52_tas_rate op (v r : R -> R) (t v' ga : R) :
  is_derive v (r t) v' -> is_derive r t (v (r t) * cos ga) ->
  let e := upd (upd (upd (fun _ => 1) Dynamic_Mission_VELOCITY (v (r t))) v_dTAS_dr v')
             Dynamic_Mission_FLIGHT_PATH_ANGLE ga in
  is_derive (fun s => v (r s)) t (out (UnsteadyConditions_TAS_flight op) e v_dTAS_dt_approx).
Proof.
  intros V Rr e. evar_last; [apply (is_derive_comp v r); eassumption|]. subst e. red_comp. unfold scal. cbn.
  unfold mult. cbn. ring.
Qed.
Print Assumptions C52_tas_rate.
Example C52_witness_tas_rate :
  out (UnsteadyConditions_TAS_flight unit_options) (upd (fun _ => 3) Dynamic_Mission_FLIGHT_PATH_ANGLE 0)
    v_dTAS_dt_approx = 9.
Proof. red_comp. rewrite cos_0. field. Qed.

(** Equivalent airspeed mode: the reported rate is not the time derivative of the true airspeed.  Level flight at a
    quarter of the sea level density with the equivalent airspeed equal to the distance flown. *)
Theorem C52_eas_rate_refuted :
  let op := std in
  let e := upd (upd (upd (upd (fun _ => 0) v_EAS 1) Dynamic_Atmosphere_DENSITY 1) v_dEAS_dr 1)
             Dynamic_Atmosphere_SPEED_OF_SOUND 1 in
  let tas := out (UnsteadyConditions_EAS_flight op) e Dynamic_Mission_VELOCITY in
  tas = 2 /\
  (forall r : R -> R, r 0 = 1 -> is_derive r 0 tas -> is_derive (fun t => r t / sqrt (1 / 4)) 0 4) /\
  out (UnsteadyConditions_EAS_flight op) e v_dTAS_dt_approx = 16.
Proof.
  assert (Q : sqrt (1 / 4) = 1 / 2) by (replace (1 / 4) with ((1 / 2) ^ 2) by field; apply sqrt_pow2; lra).
  assert (F : pw (15 / 10) (4 / 1) = 8).
  { replace (4 / 1) with (2 ^ 2) by field. rewrite (half_up (15 / 10) 3 (2 ^ 2)) by (solve [lra | inr]).
    rewrite sqrt_pow2 by lra. ring. }
  cbv zeta. split; [red_comp; cbv [on std]; rewrite Q; field|].
  split.
  - red_comp; cbv [on std]; rewrite Q. intros r E D.
    apply (is_derive_ext (fun t => scal 2 (r t))); [intro t; unfold scal; cbn; unfold mult; cbn; rewrite ?Q; field|].
    replace 4 with (scal 2 (1 / (1 / 2))) by (unfold scal; cbn; unfold mult; cbn; field).
    apply (is_derive_scal r). exact D.
  - red_comp; cbv [on std]; rewrite Q, F, cos_0, sin_0. field. apply Rgt_not_eq, pw_pos. lra.
Qed.
Print Assumptions C52_eas_rate_refuted.
