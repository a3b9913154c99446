(** Properties of the GASP furnishing masses: claim C56. *)
From Coq Require Import Reals Lra Lia.
From Coquelicot Require Import Coquelicot.
From Verif Require Import Base MathModel MathProofs Comp CompMore CompFun GaspSysModel.
Local Open Scope R_scope.
Notation SMOOTH := Aircraft_Design_SMOOTH_MASS_DISCONTINUITIES.

Lemma pilots_pos p t : 0 < get_num_of_pilots p t.
Proof. unfold get_num_of_pilots. cbv zeta. branches; lra. Qed.
Lemma attendants_nonneg p : 0 <= get_num_of_flight_attendent p.
Proof. unfold get_num_of_flight_attendent. cbv zeta. branches; lra. Qed.
Lemma lavatories_nonneg p : 0 <= get_num_of_lavatories p.
Proof. unfold get_num_of_lavatories. cbv zeta. branches; lra. Qed.
Opaque get_num_of_pilots get_num_of_flight_attendent get_num_of_lavatories.
Ltac counts :=
  repeat match goal with
  | H : context [get_num_of_pilots _ _] |- _ => revert H
  | H : context [get_num_of_flight_attendent _] |- _ => revert H
  | H : context [get_num_of_lavatories _] |- _ => revert H
  end;
  repeat match goal with
  | |- context [get_num_of_pilots ?p ?t] => generalize (pilots_pos p t); generalize (get_num_of_pilots p t); intros ? ?
  | |- context [get_num_of_flight_attendent ?p] => generalize (attendants_nonneg p); generalize (get_num_of_flight_attendent p); intros ? ?
  | |- context [get_num_of_lavatories ?p] => generalize (lavatories_nonneg p); generalize (get_num_of_lavatories p); intros ? ?
  end; intros.
Ltac product a b :=
  lazymatch goal with
  | _ : 0 < a * b |- _ => fail
  | _ => assert (0 < a * b) by (first [assumption | apply Rmult_lt_0_compat; lra])
  end.
Ltac products_in y :=
  repeat match y with
  | context [_ * (_ / _ * ?a) * ?b * PI / 2] =>
      product a b; assert (0 < a * b * PI) by (apply Rmult_lt_0_compat; assumption)
  | context [?a * (1 + ?b / 12)] => product a b
  | context [?a * ?b + _] => product a b
  end.
Ltac products :=
  pose proof PI_RGT_0;
  lazymatch goal with |- is_derive ?f ?x _ => let y := eval cbv beta in (f x) in products_in y | _ => idtac end.
Ltac furnish :=
  repeat match goal with H : _ \/ _ |- _ => destruct H end; decided; counts; products.
(** Furnishings without smoothing.  With fewer than 50 passengers, a heavy aircraft and a cabin width from 5.667 to 8.9
    compute raises UnboundLocalError (L123-128); such points are excluded. *)
Theorem C56_FurnishingMass op : ob op SMOOTH = false -> 0 <= on op Aircraft_CrewPayload_Design_NUM_PASSENGERS ->
  exact_partials (FurnishingMass op) (fun e =>
    positive [Aircraft_Fuselage_AVG_DIAMETER; Aircraft_Fuselage_LENGTH; Aircraft_Furnishings_MASS_SCALER; Aircraft_Fuselage_CABIN_AREA] e /\
    e Aircraft_Design_GROSS_MASS <> 10000 /\ 65 / 1000 * e Aircraft_Design_GROSS_MASS - 59 <> 30 /\
    (e Aircraft_Design_GROSS_MASS < 10000 \/ 50 <= on op Aircraft_CrewPayload_Design_NUM_PASSENGERS \/
     e Aircraft_Fuselage_AVG_DIAMETER < 5667 / 1000 \/ 89 / 10 < e Aircraft_Fuselage_AVG_DIAMETER)).
Proof.
  intros S Dop. red_comp_in S. red_comp_in Dop. exact_start; exact_prepare; furnish; decided; repeat settle; derive_goal; try solve [pw_field].
Qed.
Print Assumptions C56_FurnishingMass.
Example C56_witness_FurnishingMass : out (FurnishingMass unit_options) (fun _ => 1) Aircraft_Furnishings_MASS = 30.
Proof. red_comp. cbv [on ob unit_options]. rewrite leb_intro by lra. rewrite Rmax_right; lra. Qed.

Theorem C56_BWBFurnishingMass op : ob op SMOOTH = false -> 0 <= on op Aircraft_CrewPayload_Design_NUM_PASSENGERS ->
  exact_partials (BWBFurnishingMass op) (fun e =>
    positive [Aircraft_Fuselage_HYDRAULIC_DIAMETER; Aircraft_Fuselage_LENGTH; Aircraft_Furnishings_MASS_SCALER; Aircraft_Fuselage_CABIN_AREA] e /\
    e Aircraft_Design_GROSS_MASS <> 10000 /\ 65 / 1000 * e Aircraft_Design_GROSS_MASS - 59 <> 30 /\
    (e Aircraft_Design_GROSS_MASS < 10000 \/ 50 <= on op Aircraft_CrewPayload_Design_NUM_PASSENGERS \/
     e Aircraft_Fuselage_HYDRAULIC_DIAMETER < 5667 / 1000 \/ 89 / 10 < e Aircraft_Fuselage_HYDRAULIC_DIAMETER)).
Proof.
  intros S Dop. red_comp_in S. red_comp_in Dop. exact_start; exact_prepare; furnish; decided; repeat settle; derive_goal; try solve [pw_field].
Qed.
Print Assumptions C56_BWBFurnishingMass.
Example C56_witness_BWBFurnishingMass : out (BWBFurnishingMass unit_options) (fun _ => 1) Aircraft_Furnishings_MASS = 30.
Proof. red_comp. cbv [on ob unit_options]. rewrite leb_intro by lra. rewrite Rmax_right; lra. Qed.

(** With smoothing the mass above 10000 lbm is multiplied by the option `smooth` and not by the sigmoid (L99): below the
    threshold the mass is too large by the whole mass of the other branch. *)
Theorem C56_furnishing_smooth_refuted op op' e :
  ob op SMOOTH = true -> ob op' SMOOTH = false ->
  50 <= on op Aircraft_CrewPayload_Design_NUM_PASSENGERS -> ob op Aircraft_Furnishings_USE_EMPIRICAL_EQUATION = true ->
  0 < on op v_mu ->
  positive [Aircraft_Fuselage_AVG_DIAMETER; Aircraft_Fuselage_LENGTH; Aircraft_Furnishings_MASS_SCALER; Aircraft_Fuselage_CABIN_AREA] e ->
  2000 <= e Aircraft_Design_GROSS_MASS < 9996 ->
  out (FurnishingMass op') e Aircraft_Furnishings_MASS +
  e Aircraft_Furnishings_MASS_SCALER * on op Aircraft_CrewPayload_Design_NUM_PASSENGERS <=
  out (FurnishingMass op) e Aircraft_Furnishings_MASS.
Proof.
  intros S S' P E M D G. red_comp_in S. red_comp_in S'. red_comp_in P. red_comp_in E. red_comp_in M.
  match goal with |- context [out ?c e _] => revert D G; let l := eval hnf in (c_ins c) in table e l; intros D G; red_comp_in D; red_comp_in G end.
  red_comp. conjuncts. rewrite S, S', E. rewrite (leb_intro _ _ P). rewrite (leb_intro (r * 1) 10000) by lra.
  rewrite sigf_low by lra. counts. pose proof PI_RGT_0.
  match goal with |- Rmax ?a ?b / 1 + ?c <= smaxf ?m ?mu ?x / 1 => 
    pose proof (smaxf_ge x m mu ltac:(assumption)); assert (a + c <= x); [|rewrite (Rmax_left a b); lra] end.
  assert (0 < r1 * r0 * PI) by (apply Rmult_lt_0_compat; [apply Rmult_lt_0_compat|]; lra).
  match goal with H : 0 < ?n |- context [?n * (1 + r0 / 12)] => assert (0 < n * r0) by (apply Rmult_lt_0_compat; lra) end.
  lra.
Qed.
Print Assumptions C56_furnishing_smooth_refuted.
