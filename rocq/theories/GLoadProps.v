(** Properties of GASP design loads and fuselage masses: claim C62. *)
From Coq Require Import Reals Lra Lia.
From Coquelicot Require Import Coquelicot.
From Verif Require Import Base Calc MathModel MathProofs Comp CompMore CompFun GLoadModel.
Local Open Scope R_scope.
Lemma log10_pos x : 1 < x -> 0 < log10 x.
Proof.
  intro H. Transparent log10. unfold log10. apply Rdiv_lt_0_compat; [|exact ln10_pos].
  rewrite <- ln_1. apply ln_increasing; lra.
Qed.
Opaque log10.
Lemma log10_10 : log10 10 = 1.
Proof. Transparent log10. unfold log10. field. pose proof ln10_pos. lra. Opaque log10. Qed.
Lemma scaled_iff c e o i k :
  is_derive (fun t => out c (upd e i t) o) (e i) (k * jac c e o i) -> (exact_at c e o i <-> k = 1 \/ jac c e o i = 0).
Proof.
  intro S. unfold exact_at. split.
  - intro E. apply is_derive_unique in E. apply is_derive_unique in S. rewrite E in S.
    destruct (Req_dec (jac c e o i) 0) as [Z|Z]; [now right|left].
    apply (Rmult_eq_reg_r (jac c e o i)); [|exact Z]. rewrite Rmult_1_l. now symmetry.
  - intro E. eapply is_derive_eq; [exact S|]. destruct E as [-> | ->]; [apply Rmult_1_l | apply Rmult_0_r].
Qed.

(** An environment with the listed values and 1 elsewhere. *)
Definition given (l : list (string * R)) : env := fun n => fold_right (fun p r => if String.eqb n (fst p) then snd p else r) 1 l.
Ltac given_start := red_comp; cbv [given fold_right fst snd String.eqb Ascii.eqb Bool.eqb on ob oe unit_options].
Ltac decide_one := match goal with
  | |- context [ltb ?a ?b] => first [rewrite (ltb_intro_false a b) by lra | rewrite (ltb_intro a b) by lra]
  | |- context [leb ?a ?b] => first [rewrite (leb_intro_false a b) by lra | rewrite (leb_intro a b) by lra] end.
Ltac given_value := red_comp; cbv [given fold_right fst snd String.eqb Ascii.eqb Bool.eqb on ob oe unit_options]; rewrite ?pw_1, ?sqrt_1; branches; decided; try lra; try (field; lra).

Theorem C62_LoadSpeedsTransport op : exact_partials (LoadSpeedsTransport op) everywhere.
Proof. exact_start; more_goals. Qed.
Print Assumptions C62_LoadSpeedsTransport.
Example C62_witness_LoadSpeedsTransport_max_airspeed : out (LoadSpeedsTransport {| on := fun _ => 4; ob := fun _ => false; oe := fun _ => ""%string |}) (fun _ => 115) v_max_airspeed = 100.
Proof. given_value. Qed.
Example C62_witness_LoadSpeedsTransport_vel_c : out (LoadSpeedsTransport {| on := fun _ => 4; ob := fun _ => false; oe := fun _ => ""%string |}) (fun _ => 115) v_vel_c = 100.
Proof. given_value. Qed.
Example C62_witness_LoadSpeedsTransport_max_maneuver_factor : out (LoadSpeedsTransport {| on := fun _ => 4; ob := fun _ => false; oe := fun _ => ""%string |}) (fun _ => 115) v_max_maneuver_factor = 4.
Proof. given_value. Qed.
Example C62_witness_LoadSpeedsTransport_min_dive_vel : out (LoadSpeedsTransport {| on := fun _ => 4; ob := fun _ => false; oe := fun _ => ""%string |}) (fun _ => 115) v_min_dive_vel = 120.
Proof. given_value. Qed.

Theorem C62_BWBLoadSpeedsTransport op : exact_partials (BWBLoadSpeedsTransport op) everywhere.
Proof. exact_start; more_goals. Qed.
Print Assumptions C62_BWBLoadSpeedsTransport.
Example C62_witness_BWBLoadSpeedsTransport_max_airspeed : out (BWBLoadSpeedsTransport {| on := fun _ => 4; ob := fun _ => false; oe := fun _ => ""%string |}) (fun _ => 115) v_max_airspeed = 100.
Proof. given_value. Qed.
Example C62_witness_BWBLoadSpeedsTransport_vel_c : out (BWBLoadSpeedsTransport {| on := fun _ => 4; ob := fun _ => false; oe := fun _ => ""%string |}) (fun _ => 115) v_vel_c = 100.
Proof. given_value. Qed.
Example C62_witness_BWBLoadSpeedsTransport_max_maneuver_factor : out (BWBLoadSpeedsTransport {| on := fun _ => 4; ob := fun _ => false; oe := fun _ => ""%string |}) (fun _ => 115) v_max_maneuver_factor = 4.
Proof. given_value. Qed.
Example C62_witness_BWBLoadSpeedsTransport_min_dive_vel : out (BWBLoadSpeedsTransport {| on := fun _ => 4; ob := fun _ => false; oe := fun _ => ""%string |}) (fun _ => 115) v_min_dive_vel = 120.
Proof. given_value. Qed.

(** Cruise speed at most 9 / 10 of the structural speed, dive speed at least the structural speed. *)
Theorem C62_speed_limits op e : 0 < e Aircraft_Design_MAX_STRUCTURAL_SPEED ->
  let c := LoadSpeedsLightSharp op in
  out c e v_vel_c <= 9 / 10 * (e Aircraft_Design_MAX_STRUCTURAL_SPEED / (115 / 100)) /\ e Aircraft_Design_MAX_STRUCTURAL_SPEED / (115 / 100) <= out c e v_min_dive_vel /\ out c e v_max_airspeed = 85 / 100 * out c e v_min_dive_vel.
Proof. intros D c. unfold c. red_comp. repeat split; branches; lra. Qed.
Print Assumptions C62_speed_limits.

Example C62_witness_LoadSpeedsLightSharp_max_airspeed : out (LoadSpeedsLightSharp unit_options) (given [(Aircraft_Design_MAX_STRUCTURAL_SPEED, 115)]) v_max_airspeed = 85.
Proof. given_value. Qed.
Example C62_witness_LoadSpeedsLightSharp_vel_c : out (LoadSpeedsLightSharp unit_options) (given [(Aircraft_Design_MAX_STRUCTURAL_SPEED, 115)]) v_vel_c = 33.
Proof. given_value. Qed.
Example C62_witness_LoadSpeedsLightSharp_max_maneuver_factor : out (LoadSpeedsLightSharp unit_options) (given [(Aircraft_Design_MAX_STRUCTURAL_SPEED, 115)]) v_max_maneuver_factor = 22 / 5.
Proof. given_value. Qed.
Example C62_witness_LoadSpeedsLightSharp_min_dive_vel : out (LoadSpeedsLightSharp unit_options) (given [(Aircraft_Design_MAX_STRUCTURAL_SPEED, 115)]) v_min_dive_vel = 100.
Proof. given_value. Qed.

(** In category 1 compute_partials sets the partial of the cruise speed with respect to the wing loading to 0 (L207-209), but the speed grows. *)
Theorem C62_category_one_refuted op e : on op Aircraft_Design_PART25_STRUCTURAL_CATEGORY = 1 -> ob op Aircraft_Wing_LOADING_ABOVE_20 = false ->
  positive [Aircraft_Design_WING_LOADING; Aircraft_Design_MAX_STRUCTURAL_SPEED] e ->
  33 * sqrt (e Aircraft_Design_WING_LOADING) < 9 / 10 * (e Aircraft_Design_MAX_STRUCTURAL_SPEED / (115 / 100)) ->
  is_derive (fun t => out (LoadSpeedsLightSharp op) (upd e Aircraft_Design_WING_LOADING t) v_vel_c) (e Aircraft_Design_WING_LOADING) (33 / (2 * sqrt (e Aircraft_Design_WING_LOADING))) /\
  jac (LoadSpeedsLightSharp op) e v_vel_c Aircraft_Design_WING_LOADING = 0.
Proof.
  intros C F D L. red_comp_in D. unfold Aircraft_Design_PART25_STRUCTURAL_CATEGORY in C. unfold Aircraft_Wing_LOADING_ABOVE_20 in F.
  split.
  - apply (is_derive_ext_loc (fun t => 33 * sqrt t)).
    + destruct D as [W V].
      assert (P : locally (e Aircraft_Design_WING_LOADING) (fun t => 0 < 9 / 10 * (e Aircraft_Design_MAX_STRUCTURAL_SPEED / (115 / 100)) - 33 * sqrt t)).
      { apply (locally_pos (fun t => 9 / 10 * (e Aircraft_Design_MAX_STRUCTURAL_SPEED / (115 / 100)) - 33 * sqrt t)); [|lra].
        apply (ex_derive_continuous (V := R_NormedModule)). auto_derive. exact W. }
      generalize (filter_and _ _ P (locally_pos (fun t => t) _ (continuous_id _) W)). apply filter_imp. intros t [T Q].
      red_comp_in T. red_comp. rewrite C, F. replace (t ** (5 / 10)) with (sqrt t) by (rewrite (half_up (5 / 10) 1) by (assumption || (simpl; lra)); simpl; ring).
      branches; lra.
    + destruct D as [W V]. auto_derive; [exact W|]. field. apply Rgt_not_eq, sqrt_lt_R0. exact W.
  - red_comp. rewrite C, F. branches; lra.
Qed.
Print Assumptions C62_category_one_refuted.

Example C62_witness_category_one : 33 * sqrt 1 < 9 / 10 * (115 / (115 / 100)).
Proof. rewrite sqrt_1. lra. Qed.

(** Limits of the Mach number and of the density ratio. *)
Theorem C62_load_parameters op e :
  let c := LoadParametersSharp op in
  out c e v_max_mach <= 9 / 10 /\ 53281 / 100000 <= out c e v_density_ratio <= 1 /\
  (on op Aircraft_Design_PART25_STRUCTURAL_CATEGORY < 3 -> 682 / 1000 <= out c e v_density_ratio) /\
  (out c e v_V9 = e v_vel_c \/ out c e v_V9 = 6617 / 10 * out c e v_max_mach).
Proof. intros c. unfold c. red_comp. repeat split; try intro H; branches; try lra; try (left; lra); right; lra. Qed.
Print Assumptions C62_load_parameters.

Example C62_witness_LoadParametersSharp_max_mach : out (LoadParametersSharp unit_options) (given [(v_max_airspeed, 59553 / 100)]) v_max_mach = 9 / 10.
Proof. given_start; replace (59553 / 100 / (6617 / 10 * (9 / 10))) with 1 by field; rewrite ?pw_1; repeat (decide_one; cbv [fst snd dget String.eqb Ascii.eqb Bool.eqb]; replace (59553 / 100 / (6617 / 10 * (9 / 10))) with 1 by field; rewrite ?pw_1); lra. Qed.
Example C62_witness_LoadParametersSharp_density_ratio : out (LoadParametersSharp unit_options) (given [(v_max_airspeed, 59553 / 100)]) v_density_ratio = 1.
Proof. given_start; replace (59553 / 100 / (6617 / 10 * (9 / 10))) with 1 by field; rewrite ?pw_1; repeat (decide_one; cbv [fst snd dget String.eqb Ascii.eqb Bool.eqb]; replace (59553 / 100 / (6617 / 10 * (9 / 10))) with 1 by field; rewrite ?pw_1); lra. Qed.
Example C62_witness_LoadParametersSharp_V9 : out (LoadParametersSharp unit_options) (given [(v_max_airspeed, 59553 / 100)]) v_V9 = 1.
Proof. given_start; replace (59553 / 100 / (6617 / 10 * (9 / 10))) with 1 by field; rewrite ?pw_1; repeat (decide_one; cbv [fst snd dget String.eqb Ascii.eqb Bool.eqb]; replace (59553 / 100 / (6617 / 10 * (9 / 10))) with 1 by field; rewrite ?pw_1); lra. Qed.

Lemma slope_root a c m : 0 < c -> 0 < a -> (m * c) ^ 2 < 1 ->
  sqrt (a ^ 2 * (- m ^ 2 * c ^ 2 + 1) + 4 * c ^ 2) = 2 * c * sqrt (1 + (a / (2 * c)) ^ 2 * (1 - (m * c) ^ 2)).
Proof.
  intros C A M. replace (a ^ 2 * (- m ^ 2 * c ^ 2 + 1) + 4 * c ^ 2) with ((2 * c) ^ 2 * (1 + (a / (2 * c)) ^ 2 * (1 - (m * c) ^ 2))) by (field; lra).
  rewrite sqrt_mult_alt by nra. rewrite sqrt_pow2 by lra. reflexivity.
Qed.
Lemma slope_inner a c m : 0 < c -> 0 < a -> (m * c) ^ 2 < 1 -> 0 < 1 + (a / (2 * c)) ^ 2 * (1 - (m * c) ^ 2).
Proof. intros C A M. assert (0 < a / (2 * c)) by (apply Rdiv_lt_0_compat; lra). assert (0 < (a / (2 * c)) ^ 2) by (apply pow_lt; lra). nra. Qed.
Theorem C62_LiftCurveSlopeAtCruise op : exact_partials (LiftCurveSlopeAtCruise op) (fun e => positive [Aircraft_Wing_ASPECT_RATIO] e /\ 0 < cos (e Aircraft_Wing_SWEEP) /\ (e Aircraft_Design_MACH * cos (e Aircraft_Wing_SWEEP)) ^ 2 < 1).
Proof.
  exact_start; exact_prepare.
  all: match goal with C : 0 < cos ?c, A : 0 < ?a, M : (?m * cos ?c) ^ 2 < 1 |- _ =>
    pose proof (slope_inner a (cos c) m C A M) as P; rewrite ?(slope_root a (cos c) m C A M); pose proof (sqrt_lt_R0 _ P) as Q; pose proof (pow2_sqrt _ (Rlt_le _ _ P)) as E end.
  all: auto_derive; minus_div; fold_pow; [repeat split; try (apply Rgt_not_eq; assumption || lra); try assumption; lra|].
  all: fold_pow; minus_div; rewrite ?sin_2a.
  all: revert P Q E; generalize (sqrt (1 + (r / (2 * cos r0)) ^ 2 * (1 - (r1 * cos r0) ^ 2))); intros s P Q E.
  all: assert (W : (1 - (r1 * cos r0) ^ 2) = (s ^ 2 - 1) * (2 * cos r0 / r) ^ 2) by (rewrite E; field; lra).
  all: assert (M2 : r1 ^ 2 = (1 - (s ^ 2 - 1) * (2 * cos r0 / r) ^ 2) / cos r0 ^ 2) by (rewrite <- W; field; lra).
  - rewrite W. field. repeat split; first [lra | apply Rgt_not_eq; nra].
  - rewrite W. replace (r1 * (1 * - sin r0) * ((1 + 1) * (r1 * cos r0 * 1))) with (-2 * sin r0 * cos r0 * r1 ^ 2) by ring. rewrite M2. field. repeat split; first [lra | apply Rgt_not_eq; nra].
  - field. repeat split; first [lra | apply Rgt_not_eq; nra].
Qed.
Print Assumptions C62_LiftCurveSlopeAtCruise.

Example C62_witness_LiftCurveSlopeAtCruise : out (LiftCurveSlopeAtCruise unit_options) (given [(Aircraft_Wing_ASPECT_RATIO, 3 / 2); (Aircraft_Wing_SWEEP, 0); (Aircraft_Design_MACH, 0)]) Aircraft_Design_LIFT_CURVE_SLOPE = 2 / 3 * PI.
Proof. red_comp; cbv [given fold_right fst snd String.eqb Ascii.eqb Bool.eqb]. rewrite cos_0. replace (1 + (3 / 2 / (2 * 1)) ^ 2 * (1 - (0 * 1) ^ 2)) with ((5 / 4) ^ 2) by field. rewrite sqrt_pow2 by lra. field. Qed.

(** The ultimate load factor is 3 / 2 of the greatest of the manoeuvre, cruise gust and dive gust load factors. *)
Theorem C62_load_factor_max op e : 
  out (LoadFactorsSharp op) e Aircraft_Wing_ULTIMATE_LOAD_FACTOR =
  15 / 10 * (if ob op Aircraft_Design_ULF_CALCULATED_FROM_MANEUVER then e v_max_maneuver_factor else 
   let mu := 2 * e Aircraft_Design_WING_LOADING / (e v_density_ratio * on op Mission_SEA_LEVEL_DENSITY * e Aircraft_Wing_AVERAGE_CHORD * e Aircraft_Design_LIFT_CURVE_SLOPE * (322 / 10)) in
   let k := 88 / 100 * mu / (53 / 10 + mu) in
   let gust v u := 1 + k * u * v * e Aircraft_Design_LIFT_CURVE_SLOPE / (498 * e Aircraft_Design_WING_LOADING) in
   Rmax (e v_max_maneuver_factor) (Rmax (gust (e v_V9) 50) (gust (e v_min_dive_vel) 25))).
Proof. red_comp. branches; unfold Rmax; repeat destruct (Rle_dec _ _); try lra; try reflexivity. Qed.
Print Assumptions C62_load_factor_max.

Example C62_witness_LoadFactorsSharp : out (LoadFactorsSharp unit_options) (fun _ => 1) Aircraft_Wing_ULTIMATE_LOAD_FACTOR = 2151817 / 1433078.
Proof. unit_value. Qed.

(** A blended wing body has the load factor of an aircraft with the wing loading of its exposed wing. *)
Theorem C62_bwb_load_factor op e : 
  out (BWBLoadFactorsSharp op) e Aircraft_Wing_ULTIMATE_LOAD_FACTOR =
  out (LoadFactorsSharp op) (upd e Aircraft_Design_WING_LOADING (e Aircraft_Design_GROSS_MASS / e Aircraft_Wing_EXPOSED_AREA)) Aircraft_Wing_ULTIMATE_LOAD_FACTOR.
Proof. red_comp. branches; try lra; try reflexivity. Qed.
Print Assumptions C62_bwb_load_factor.
