(** Takeoff and landing estimates and the landing segments: exact partials and kinematics. *)
From Coq Require Import Reals Lra Lia.
From Coquelicot Require Import Coquelicot.
From Verif Require Import Base MathModel MathProofs Comp Vec CompMore EomLandModel.
Open Scope list_scope.
Local Open Scope R_scope.

(** ** Partials *)
Theorem C53_LandingCalc op : positive [Mission_SEA_LEVEL_DENSITY] (on op) -> exact_partials (LandingCalc op)
  (positive [Mission_FINAL_MASS; Dynamic_Atmosphere_DENSITY; Aircraft_Wing_AREA;
  Mission_Landing_LIFT_COEFFICIENT_MAX]).
Proof. intros Dop. exact_start; more_goals. Qed.
Print Assumptions C53_LandingCalc.
Example C53_witness_LandingCalc_Landing_GROUND_DISTANCE : out (LandingCalc unit_options) (fun _ => 1)
  Mission_Landing_GROUND_DISTANCE = 2605.
Proof. unit_value. Qed.

Theorem C53_StallSpeed op : exact_partials (StallSpeed op) (positive [Dynamic_Vehicle_MASS;
  Dynamic_Atmosphere_DENSITY; Aircraft_Wing_AREA; v_Cl_max]).
Proof. exact_start; more_goals. Qed.
Print Assumptions C53_StallSpeed.
Example C53_witness_StallSpeed :
  out (StallSpeed unit_options) (upd (fun _ => 1) v_Cl_max (444822 / 200000)) v_v_stall = 2.
Proof.
  red_comp. replace (2 * (1 * 1 * (444822 / 100000)) / (1 * 1 * (444822 / 200000))) with (2 ^ 2) by field.
  rewrite (half_up (5 / 10) 1 (2 ^ 2)) by (solve [lra | inr]). rewrite pow_1. apply sqrt_pow2. lra.
Qed.

Theorem C53_FinalTakeoffConditions op : positive [Mission_SEA_LEVEL_DENSITY] (on op) -> exact_partials
  (FinalTakeoffConditions op) (fun e => positive [Dynamic_Vehicle_MASS; Dynamic_Atmosphere_DENSITY;
  Aircraft_Wing_AREA; Mission_Takeoff_LIFT_COEFFICIENT_MAX; Mission_Takeoff_LIFT_OVER_DRAG] e /\ e
  Aircraft_Propulsion_TOTAL_SCALED_SLS_THRUST / (e Dynamic_Vehicle_MASS * GRAV_ENGLISH_LBM) - (2 / 10 + 55 / 10000
  * (e Dynamic_Vehicle_MASS * GRAV_ENGLISH_LBM) / e Aircraft_Wing_AREA) / e Mission_Takeoff_LIFT_OVER_DRAG <> 0 /\
  1 + e Aircraft_Propulsion_TOTAL_SCALED_SLS_THRUST * e Mission_Takeoff_CLIMBOUT_THRUST_FRACTION / (e
  Dynamic_Vehicle_MASS * GRAV_ENGLISH_LBM) - 9 / 10 / e Mission_Takeoff_LIFT_OVER_DRAG <> 0).
Proof. intros Dop. exact_start; more_goals. Qed.
Print Assumptions C53_FinalTakeoffConditions.
Example C53_witness_FinalTakeoffConditions_Takeoff_GROUND_DISTANCE : out (FinalTakeoffConditions unit_options) (fun
  _ => 1) Mission_Takeoff_GROUND_DISTANCE = 5045660 / 17479.
Proof. unit_value. Qed.
Example C53_witness_FinalTakeoffConditions_Takeoff_FINAL_VELOCITY : out (FinalTakeoffConditions unit_options) (fun
  _ => 1) Mission_Takeoff_FINAL_VELOCITY = 12309 / 10000.
Proof. unit_value. Qed.

Theorem C53_LandingAltitudeComponent op : exact_partials (LandingAltitudeComponent op) everywhere.
Proof. exact_start; more_goals. Qed.
Print Assumptions C53_LandingAltitudeComponent.
Example C53_witness_LandingAltitudeComponent : out (LandingAltitudeComponent unit_options) (fun _ => 1)
  Mission_Landing_INITIAL_ALTITUDE = 2.
Proof. unit_value. Qed.

Ltac glide_facts x H :=
  let X := fresh "X" in assert (X : 0 < x) by pos;
  let C := fresh "C" in assert (C : cos (asin x) <> 0) by (rewrite cos_asin_sqrt by lra; apply Rgt_not_eq, sqrt_lt_R0, one_minus_sq; lra);
  let T := fresh "T" in assert (T : tan (asin x) <> 0)
    by (unfold tan; rewrite sin_asin by lra; apply Rmult_integral_contrapositive_currified; [lra|now apply Rinv_neq_0_compat]);
  let A := fresh "A" in assert (A : 0 < asin x) by (apply asin_pos; lra).
Ltac glide_field :=
  minus_div; fold_pow; rewrite ?Rmult_1_r, ?Rmult_1_l in *;
  match goal with H : ?x < 1, X : 0 < ?x, A : 0 < asin ?x, C : cos (asin ?x) <> 0, T : tan (asin ?x) <> 0 |- _ =>
    let Q := fresh "Q" in assert (Q : 0 < 1 - x ^ 2) by (apply one_minus_sq; lra);
    repeat match goal with |- context [pw ?a (1 - x ^ 2)] => rewrite (half_down a 1 (1 - x ^ 2)) by (solve [pos | inr]) end;
    rewrite ?(tan_sq (asin x)) by assumption;
    let S := fresh "S" in assert (S : 0 < sqrt (1 - x ^ 2)) by (apply sqrt_lt_R0; exact Q);
    clear H X Q;
    revert S A C T; generalize (sqrt (1 - x ^ 2)) (asin x); intros ?q ?a ?S ?A;
    match goal with |- cos ?a <> 0 -> tan ?a <> 0 -> _ => generalize (cos a) (tan a) end; intros ?c ?t ?C ?T
  end; half_field.
Theorem C53_GlideConditionComponent op : positive [Mission_GRAVITY; Mission_SEA_LEVEL_DENSITY] (on op) ->
  exact_partials (GlideConditionComponent op) (fun e => positive [Dynamic_Atmosphere_DENSITY;
  Mission_Landing_MAXIMUM_SINK_RATE; Dynamic_Vehicle_MASS; Aircraft_Wing_AREA;
  Mission_Landing_GLIDE_TO_STALL_RATIO; v_CL_max] e /\ e Mission_Landing_MAXIMUM_SINK_RATE / (60 * (sqrt (2 * (e
  Dynamic_Vehicle_MASS * GRAV_ENGLISH_LBM / e Aircraft_Wing_AREA) / (e v_CL_max * e Dynamic_Atmosphere_DENSITY)) *
  e Mission_Landing_GLIDE_TO_STALL_RATIO)) < 1 /\ e Mission_Landing_MAXIMUM_FLARE_LOAD_FACTOR - 1 <> 0).
Proof.
  intros Dop. exact_start.
  all: exact_prepare.
  all: match goal with H : ?x < 1 |- _ => glide_facts x H end.
  all: derive_goal.
  all: try lra.
  all: try (match goal with |- context [sqrt (1 - _)] => solve [glide_field] end).
  all: try solve [pw_field].
  all: try solve [half_field].
  all: glide_field.
Qed.
Print Assumptions C53_GlideConditionComponent.
Example C53_witness_GlideConditionComponent_density_ratio : out (GlideConditionComponent unit_options) (fun _ => 1)
  v_density_ratio = 1.
Proof. unit_value. Qed.
Example C53_witness_GlideConditionComponent_wing_loading_land : out (GlideConditionComponent unit_options) (fun _
  => 1) v_wing_loading_land = 1.
Proof. unit_value. Qed.

Lemma ground_roll_exact op : positive [Mission_GRAVITY] (on op) -> exact_partials
  (LandingGroundRollComponent op) (fun e => positive [v_density_ratio; v_wing_loading_land; v_CL_max;
  Mission_Landing_STALL_VELOCITY; v_TAS_touchdown; Dynamic_Vehicle_MASS] e /\ (e
  Mission_Landing_BRAKING_FRICTION_COEFFICIENT - e v_thrust_idle / (e Dynamic_Vehicle_MASS * GRAV_ENGLISH_LBM)) <>
  0 /\ (e Mission_Landing_BRAKING_FRICTION_COEFFICIENT - e v_thrust_idle / (e Dynamic_Vehicle_MASS *
  GRAV_ENGLISH_LBM)) + ((e v_touchdown_CD - e Mission_Landing_BRAKING_FRICTION_COEFFICIENT * e v_touchdown_CL) / (e
  v_CL_max * (e Mission_Landing_STALL_VELOCITY / e v_TAS_touchdown) ^ 2)) <> 0 /\ (e v_touchdown_CD - e
  Mission_Landing_BRAKING_FRICTION_COEFFICIENT * e v_touchdown_CL) <> 0 /\ 0 < (e
  Mission_Landing_BRAKING_FRICTION_COEFFICIENT - e v_thrust_idle / (e Dynamic_Vehicle_MASS * GRAV_ENGLISH_LBM)) /
  ((e Mission_Landing_BRAKING_FRICTION_COEFFICIENT - e v_thrust_idle / (e Dynamic_Vehicle_MASS * GRAV_ENGLISH_LBM))
  + ((e v_touchdown_CD - e Mission_Landing_BRAKING_FRICTION_COEFFICIENT * e v_touchdown_CL) / (e v_CL_max * (e
  Mission_Landing_STALL_VELOCITY / e v_TAS_touchdown) ^ 2))) /\ ln ((e Mission_Landing_BRAKING_FRICTION_COEFFICIENT
  - e v_thrust_idle / (e Dynamic_Vehicle_MASS * GRAV_ENGLISH_LBM)) / ((e
  Mission_Landing_BRAKING_FRICTION_COEFFICIENT - e v_thrust_idle / (e Dynamic_Vehicle_MASS * GRAV_ENGLISH_LBM)) +
  ((e v_touchdown_CD - e Mission_Landing_BRAKING_FRICTION_COEFFICIENT * e v_touchdown_CL) / (e v_CL_max * (e
  Mission_Landing_STALL_VELOCITY / e v_TAS_touchdown) ^ 2)))) <> 0).
Proof. intros Dop. exact_start; more_goals. Qed.

(** ** Approach, flare and ground roll *)
Definition glide_dom (e : env) : Prop :=
  positive [Dynamic_Atmosphere_DENSITY; Mission_Landing_MAXIMUM_SINK_RATE; Dynamic_Vehicle_MASS; Aircraft_Wing_AREA;
            Mission_Landing_GLIDE_TO_STALL_RATIO; v_CL_max] e.

(** At the stall speed the maximum lift carries the weight; the glide speed is the given multiple of it; the touchdown
    speed lies between the two when the ratio is at least one. *)
Theorem C53_approach_speeds op e :
  glide_dom e ->
  let S := out (GlideConditionComponent op) e Mission_Landing_STALL_VELOCITY in
  let G := out (GlideConditionComponent op) e Mission_Landing_INITIAL_VELOCITY in
  let T := out (GlideConditionComponent op) e v_TAS_touchdown in
  1 / 2 * e Dynamic_Atmosphere_DENSITY * S ^ 2 * e Aircraft_Wing_AREA * e v_CL_max
  = e Dynamic_Vehicle_MASS * GRAV_ENGLISH_LBM /\
  G = S * e Mission_Landing_GLIDE_TO_STALL_RATIO /\ 0 < S /\
  (1 <= e Mission_Landing_GLIDE_TO_STALL_RATIO -> S <= T <= G).
Proof.
  intros D S G T. unfold glide_dom in D. red_comp_in D. conjuncts. subst S G T. red_comp. numbers e. intros.
  match goal with |- context [sqrt ?x] => assert (X : 0 < x) by pos; assert (Q : sqrt x ^ 2 = x) by (apply pow2_sqrt; lra);
    assert (P : 0 < sqrt x) by (apply sqrt_lt_R0; exact X) end.
  split; [rewrite Q; field; repeat split; nonzero|]. split; [reflexivity|]. split; [exact P|]. intro L.
  split; nra.
Qed.
Print Assumptions C53_approach_speeds.
Example C53_witness_approach_speeds :
  out (GlideConditionComponent unit_options) (upd (fun _ => 1) v_CL_max (1 / 2)) Mission_Landing_STALL_VELOCITY = 2.
Proof.
  red_comp. replace (2 * (1 * 1 / 1) / (1 / 2 * 1)) with (2 ^ 2) by field. apply sqrt_pow2. lra.
Qed.

(** The descent angle gives the sink rate at the glide speed, and the glide distance covers the approach altitude. *)
Theorem C53_glide_geometry op e :
  glide_dom e ->
  let G := out (GlideConditionComponent op) e Mission_Landing_INITIAL_VELOCITY in
  let th := out (GlideConditionComponent op) e v_theta in
  e Mission_Landing_MAXIMUM_SINK_RATE < 60 * G ->
  60 * G * sin th = e Mission_Landing_MAXIMUM_SINK_RATE /\
  out (GlideConditionComponent op) e v_glide_distance * tan th = e Mission_Landing_INITIAL_ALTITUDE.
Proof.
  intros D G th. unfold glide_dom in D. red_comp_in D. conjuncts. subst G th. red_comp. numbers e. intros.
  match goal with L : _ < 60 * (sqrt ?x * _) |- _ => assert (X : 0 < x) by pos;
    assert (P : 0 < sqrt x) by (apply sqrt_lt_R0; exact X); clear X; revert P L; generalize (sqrt x); intros s P L end.
  match goal with |- context [asin (?a / ?b)] =>
    assert (0 < b) by pos; assert (B : 0 < a / b < 1);
    [split; [pos|]; apply (Rmult_lt_reg_r b); [assumption|]; unfold Rdiv; rewrite Rmult_assoc, Rinv_l by lra; lra|];
    assert (T : tan (asin (a / b)) <> 0) end.
  { unfold tan. rewrite sin_asin by lra. rewrite cos_asin_sqrt by lra. apply Rmult_integral_contrapositive_currified; [lra|].
    apply Rinv_neq_0_compat, Rgt_not_eq, sqrt_lt_R0, one_minus_sq; lra. }
  split; [rewrite sin_asin by lra; field; split; nonzero|]. field. exact T.
Qed.
Print Assumptions C53_glide_geometry.
Example C53_witness_glide_geometry :
  let e := upd (upd (fun _ => 1) v_CL_max (1 / 2)) Mission_Landing_MAXIMUM_SINK_RATE 60 in
  sin (out (GlideConditionComponent unit_options) e v_theta) = 1 / 2.
Proof.
  red_comp. replace (2 * (1 * 1 / 1) / (1 / 2 * 1)) with (2 ^ 2) by field. rewrite sqrt_pow2 by lra.
  rewrite sin_asin; lra.
Qed.

(** The ground roll: the total distance is the sum of its parts, and the average acceleration stops the aircraft from its
    touchdown speed within the ground roll. *)
Theorem C53_ground_roll op e :
  out (LandingGroundRollComponent op) e Mission_Landing_GROUND_DISTANCE
  = e v_glide_distance + e v_tr_distance + e v_delay_distance
    + out (LandingGroundRollComponent op) e v_ground_roll_distance /\
  (on op Mission_GRAVITY <> 0 -> out (LandingGroundRollComponent op) e v_ground_roll_distance <> 0 ->
   2 * (out (LandingGroundRollComponent op) e v_average_acceleration * on op Mission_GRAVITY)
     * out (LandingGroundRollComponent op) e v_ground_roll_distance = e v_TAS_touchdown ^ 2).
Proof.
  red_comp. match goal with |- context [?x + e _ + e _ + e _] => generalize x end. intro x. split; [ring|].
  intros G X. field. auto.
Qed.
Print Assumptions C53_ground_roll.

(** With braking stronger than the idle thrust and aerodynamic drag above the unloading by lift, the ground roll is
    positive. *)
Lemma ln_neg x : 0 < x < 1 -> ln x < 0.
Proof. intros [P L]. rewrite <- ln_1. now apply ln_increasing. Qed.
Definition roll_dom (e : env) : Prop :=
  positive [v_density_ratio; v_wing_loading_land; v_CL_max; Mission_Landing_STALL_VELOCITY; v_TAS_touchdown;
            Dynamic_Vehicle_MASS] e /\
  e v_thrust_idle < e Mission_Landing_BRAKING_FRICTION_COEFFICIENT * (e Dynamic_Vehicle_MASS * GRAV_ENGLISH_LBM) /\
  e Mission_Landing_BRAKING_FRICTION_COEFFICIENT * e v_touchdown_CL < e v_touchdown_CD.
Lemma roll_facts mu t m cd cl clm vs vt :
  0 < m -> 0 < clm -> 0 < vs -> 0 < vt -> t < mu * (m * 1) -> mu * cl < cd ->
  let F := mu - t / (m * 1) in let D := cd - mu * cl in let A := D / (clm * (vs / vt) ^ 2) in
  0 < F /\ 0 < D /\ 0 < A /\ 0 < F / (F + A) < 1.
Proof.
  intros M C S V H K F D A.
  assert (0 < F).
  { unfold F. apply (Rmult_lt_reg_r (m * 1)); [pos|]. replace ((mu - t / (m * 1)) * (m * 1)) with (mu * (m * 1) - t) by (field; lra). lra. }
  assert (0 < D) by (unfold D; lra). assert (0 < A) by (unfold A; pos). repeat split; try assumption.
  - apply Rdiv_lt_0_compat; lra.
  - apply (Rmult_lt_reg_r (F + A)); [lra|]. unfold Rdiv. rewrite Rmult_assoc, Rinv_l by lra. lra.
Qed.
Theorem C53_ground_roll_positive op e :
  roll_dom e -> 0 < out (LandingGroundRollComponent op) e v_ground_roll_distance.
Proof.
  intros (P & H & K). red_comp_in P. red_comp_in H. red_comp_in K. conjuncts. red_comp. numbers e. intros.
  match goal with |- context [ln ((?mu - ?t / (?m * 1)) / (_ + (?cd - ?mu * ?cl) / (?c * (?vs / ?vt) ^ 2)))] =>
    destruct (roll_facts mu t m cd cl c vs vt) as (F & D & A & L); try assumption end.
  pose proof (ln_neg _ L) as N. revert N. match goal with |- ln ?x < 0 -> _ => generalize (ln x) end. intros x N.
  replace (-130287 / 10000) with (- (130287 / 10000)) by field.
  match goal with |- 0 < - ?a * ?b * x / ?c => replace (- a * b * x / c) with (a * b * - x / c) by (field; nonzero) end. pos.
Qed.
Print Assumptions C53_ground_roll_positive.
Example C53_witness_ground_roll :
  let e := upd (upd (fun _ => 1) v_thrust_idle 0) v_touchdown_CL 0 in
  roll_dom e /\ out (LandingGroundRollComponent unit_options) e v_ground_roll_distance = 130287 / 10000 * ln 2.
Proof.
  split; [repeat split; red_comp; lra|]. red_comp. cbv [on unit_options].
  replace ((1 - 0 / (1 * 1)) / (1 - 0 / (1 * 1) + (1 - 1 * 0) / (1 * (1 / 1) ^ 2))) with (/ 2) by field.
  rewrite ln_Rinv by lra. field.
Qed.

Theorem C53_LandingGroundRollComponent op : positive [Mission_GRAVITY] (on op) ->
  exact_partials (LandingGroundRollComponent op) roll_dom.
Proof.
  intro Dop. destruct (ground_roll_exact op Dop) as (A & B & C).
  assert (K : forall e, roll_dom e ->
    positive [v_density_ratio; v_wing_loading_land; v_CL_max;
  Mission_Landing_STALL_VELOCITY; v_TAS_touchdown; Dynamic_Vehicle_MASS] e /\ (e
  Mission_Landing_BRAKING_FRICTION_COEFFICIENT - e v_thrust_idle / (e Dynamic_Vehicle_MASS * GRAV_ENGLISH_LBM)) <>
  0 /\ (e Mission_Landing_BRAKING_FRICTION_COEFFICIENT - e v_thrust_idle / (e Dynamic_Vehicle_MASS *
  GRAV_ENGLISH_LBM)) + ((e v_touchdown_CD - e Mission_Landing_BRAKING_FRICTION_COEFFICIENT * e v_touchdown_CL) / (e
  v_CL_max * (e Mission_Landing_STALL_VELOCITY / e v_TAS_touchdown) ^ 2)) <> 0 /\ (e v_touchdown_CD - e
  Mission_Landing_BRAKING_FRICTION_COEFFICIENT * e v_touchdown_CL) <> 0 /\ 0 < (e
  Mission_Landing_BRAKING_FRICTION_COEFFICIENT - e v_thrust_idle / (e Dynamic_Vehicle_MASS * GRAV_ENGLISH_LBM)) /
  ((e Mission_Landing_BRAKING_FRICTION_COEFFICIENT - e v_thrust_idle / (e Dynamic_Vehicle_MASS * GRAV_ENGLISH_LBM))
  + ((e v_touchdown_CD - e Mission_Landing_BRAKING_FRICTION_COEFFICIENT * e v_touchdown_CL) / (e v_CL_max * (e
  Mission_Landing_STALL_VELOCITY / e v_TAS_touchdown) ^ 2))) /\ ln ((e Mission_Landing_BRAKING_FRICTION_COEFFICIENT
  - e v_thrust_idle / (e Dynamic_Vehicle_MASS * GRAV_ENGLISH_LBM)) / ((e
  Mission_Landing_BRAKING_FRICTION_COEFFICIENT - e v_thrust_idle / (e Dynamic_Vehicle_MASS * GRAV_ENGLISH_LBM)) +
  ((e v_touchdown_CD - e Mission_Landing_BRAKING_FRICTION_COEFFICIENT * e v_touchdown_CL) / (e v_CL_max * (e
  Mission_Landing_STALL_VELOCITY / e v_TAS_touchdown) ^ 2)))) <> 0).
  { intros e (P & H & K). red_comp_in P. red_comp_in H. red_comp_in K. conjuncts. red_comp. numbers e. intros.
    split; [repeat split; assumption|].
    match goal with |- context [ln ((?mu - ?t / (?m * 1)) / (_ + (?cd - ?mu * ?cl) / (?c * (?vs / ?vt) ^ 2)))] =>
      destruct (roll_facts mu t m cd cl c vs vt) as (F & D & G & L); try assumption end.
    pose proof (ln_neg _ L). repeat split; lra. }
  split; [intros; now apply A; [|apply K]|]. split; [exact B|]. intros. apply C; auto.
Qed.
Print Assumptions C53_LandingGroundRollComponent.

(** ** Simple takeoff and landing estimates *)
(** The approach speed is 1.3 times the stall speed of the landing configuration. *)
Theorem C53_approach_margin op e :
  positive [Mission_FINAL_MASS; Dynamic_Atmosphere_DENSITY; Aircraft_Wing_AREA; Mission_Landing_LIFT_COEFFICIENT_MAX] e ->
  let V := out (LandingCalc op) e Mission_Landing_INITIAL_VELOCITY / (13 / 10) in
  1 / 2 * e Dynamic_Atmosphere_DENSITY * V ^ 2 * e Aircraft_Wing_AREA * e Mission_Landing_LIFT_COEFFICIENT_MAX
  = e Mission_FINAL_MASS * GRAV_ENGLISH_LBM.
Proof.
  intros D V. red_comp_in D. conjuncts. subst V. red_comp. numbers e. intros.
  match goal with |- context [(?x / (13 / 10)) ^ 2] => replace ((x / (13 / 10)) ^ 2) with (x ^ 2 / (13 / 10) ^ 2) by field end.
  rewrite <- (pw_double 1) by (solve [pos | lra]). rewrite pw_id by (solve [pos | lra]). field. repeat split; nonzero.
Qed.
Print Assumptions C53_approach_margin.
Example C53_witness_approach_margin : out (LandingCalc unit_options)
  (upd (fun _ => 1) Mission_Landing_LIFT_COEFFICIENT_MAX (169 / 200)) Mission_Landing_INITIAL_VELOCITY = 2.
Proof.
  red_comp. replace (2 * (1 * 1) / (1 * 1 * (169 / 200 / (13 / 10) ^ 2))) with (2 ^ 2) by field.
  rewrite (half_up (5 / 10) 1 (2 ^ 2)) by (solve [lra | inr]). rewrite pow_1. apply sqrt_pow2. lra.
Qed.

(** Takeoff conserves mass: gross mass is the final mass plus the takeoff fuel. *)
Theorem C53_takeoff_mass op e :
  out (FinalTakeoffConditions op) e Mission_Takeoff_FINAL_MASS + e Mission_Takeoff_FUEL_MASS = e Dynamic_Vehicle_MASS.
Proof. red_comp. ring. Qed.
Print Assumptions C53_takeoff_mass.
Example C53_witness_takeoff_mass :
  out (FinalTakeoffConditions unit_options) (upd (fun _ => 1) Dynamic_Vehicle_MASS 5) Mission_Takeoff_FINAL_MASS = 4.
Proof. red_comp. ring. Qed.

(** At the stall speed the maximum lift, in newtons, carries the weight. *)
Theorem C53_stall_lift op e : positive [Dynamic_Vehicle_MASS; Dynamic_Atmosphere_DENSITY; Aircraft_Wing_AREA; v_Cl_max] e ->
  1 / 2 * e Dynamic_Atmosphere_DENSITY * out (StallSpeed op) e v_v_stall ^ 2 * e Aircraft_Wing_AREA * e v_Cl_max
  = e Dynamic_Vehicle_MASS * GRAV_ENGLISH_LBM * (444822 / 100000).
Proof.
  intro D. red_comp_in D. conjuncts. red_comp. numbers e. intros.
  match goal with |- context [pw _ ?x ^ 2] => assert (X : 0 < x) by pos; rewrite (half_up (5 / 10) 1 x) by (solve [exact X | inr]);
    rewrite pow_1, (pow2_sqrt x) by lra end.
  field. repeat split; nonzero.
Qed.
Print Assumptions C53_stall_lift.
Example C53_witness_stall_lift :
  out (StallSpeed unit_options) (upd (fun _ => 1) v_Cl_max (444822 / 200000)) v_v_stall = 2.
Proof. exact C53_witness_StallSpeed. Qed.
