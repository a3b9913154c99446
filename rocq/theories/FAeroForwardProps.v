(** Induced drag of forward swept wings: claim C60. *)
From Coq Require Import Reals Lra Lia.
From Coquelicot Require Import Coquelicot.
From Verif Require Import Base Calc MathModel MathProofs Comp CompMore CompFun FAeroModel FAeroProofs.
Local Open Scope R_scope.

(** The factor for forward sweep as a function of the Mach number, the tangent of the sweep and the taper. *)
Definition cosA (w th : R) : R := 1 / sqrt (1 + (w - 3 * th) ^ 2).
Definition cosB (w th : R) : R := 1 / sqrt (1 + (w + th) ^ 2).
Definition cayt (m a b : R) : R := 5 / 10 * ((11 / 10 - 11 / 100 / (11 / 10 - m * a)) / (11 / 10 - 11 / 100 / (11 / 10 - m * b)) - 1) ^ 2.
Definition fA (m a : R) : R := 11 / 10 - m * a.
Definition f5 (m a : R) : R := 11 / 10 - 11 / 100 / fA m a.
Lemma sq_pos x : 0 < 1 + x ^ 2.
Proof. nra. Qed.
Lemma cosA_w w th : is_derive (fun t => cosA t th) w (- 5 / 10 / (1 + (w - 3 * th) ^ 2) ** (15 / 10) * 2 * (w - 3 * th)).
Proof.
  unfold cosA. pose proof (sq_pos (w - 3 * th)) as Q. rewrite (half_up (15 / 10) 3) by (exact Q || inr).
  assert (S := sqrt_lt_R0 _ Q). auto_derive; minus_div.
  - fold_pow. repeat split; first [exact Q | apply Rgt_not_eq; exact S | lra].
  - fold_pow. rewrite ?Rmult_1_r. field. lra.
Qed.
Lemma cosA_th w th : is_derive (fun t => cosA w t) th (5 / 10 / (1 + (w - 3 * th) ^ 2) ** (15 / 10) * 6 * (w - 3 * th)).
Proof.
  unfold cosA. pose proof (sq_pos (w - 3 * th)) as Q. rewrite (half_up (15 / 10) 3) by (exact Q || inr).
  assert (S := sqrt_lt_R0 _ Q). auto_derive; minus_div.
  - fold_pow. repeat split; first [exact Q | apply Rgt_not_eq; exact S | lra].
  - fold_pow. rewrite ?Rmult_1_r. field. lra.
Qed.
Lemma cosB_w w th : is_derive (fun t => cosB t th) w (- 5 / 10 / (1 + (w + th) ^ 2) ** (15 / 10) * 2 * (w + th)).
Proof.
  unfold cosB. pose proof (sq_pos (w + th)) as Q. rewrite (half_up (15 / 10) 3) by (exact Q || inr).
  assert (S := sqrt_lt_R0 _ Q). auto_derive; minus_div.
  - fold_pow. repeat split; first [exact Q | apply Rgt_not_eq; exact S | lra].
  - fold_pow. rewrite ?Rmult_1_r. field. lra.
Qed.
Lemma cosB_th w th : is_derive (fun t => cosB w t) th (- 5 / 10 / (1 + (w + th) ^ 2) ** (15 / 10) * 2 * (w + th)).
Proof.
  unfold cosB. pose proof (sq_pos (w + th)) as Q. rewrite (half_up (15 / 10) 3) by (exact Q || inr).
  assert (S := sqrt_lt_R0 _ Q). auto_derive; minus_div.
  - fold_pow. repeat split; first [exact Q | apply Rgt_not_eq; exact S | lra].
  - fold_pow. rewrite ?Rmult_1_r. field. lra.
Qed.
Definition regular (m a b : R) : Prop := 11 / 10 - m * a <> 0 /\ 11 / 10 - m * b <> 0 /\ 11 / 10 - 11 / 100 / (11 / 10 - m * b) <> 0.
Lemma regular_third m b : 11 / 10 - m * b <> 0 -> 11 / 10 - 11 / 100 / (11 / 10 - m * b) <> 0 -> 110 * (11 - 10 * m * b) - 110 <> 0.
Proof. intros A B C. apply B. replace (11 / 10 - 11 / 100 / (11 / 10 - m * b)) with ((110 * (11 - 10 * m * b) - 110) / (1000 * (11 / 10 - m * b))) by (field; lra). rewrite C. unfold Rdiv. ring. Qed.
Lemma cayt_m m a b : regular m a b -> is_derive (fun t => cayt t a b) m ((f5 m a / f5 m b - 1) *
  (- 11 / 100 * a / (f5 m b * fA m a ^ 2) + 11 / 100 * f5 m a * b / (fA m b ^ 2 * f5 m b ^ 2))).
Proof.
  intros (A & B & C). unfold cayt, f5, fA. assert (D := regular_third m b B C). auto_derive; minus_div; [tauto|].
  field. repeat split; try lra; intro Z; apply D; lra.
Qed.
Lemma cayt_a m a b : regular m a b -> is_derive (fun t => cayt m t b) a ((f5 m a / f5 m b - 1) * (- 11 / 100 * m / (f5 m b * fA m a ^ 2))).
Proof.
  intros (A & B & C). unfold cayt, f5, fA. assert (D := regular_third m b B C). auto_derive; minus_div; [tauto|].
  field. repeat split; try lra; intro Z; apply D; lra.
Qed.
Lemma cayt_b m a b : regular m a b -> is_derive (fun t => cayt m a t) b ((f5 m a / f5 m b - 1) * (11 / 100 * f5 m a * m / (fA m b ^ 2 * f5 m b ^ 2))).
Proof.
  intros (A & B & C). unfold cayt, f5, fA. assert (D := regular_third m b B C). auto_derive; minus_div; [tauto|].
  field. repeat split; try lra; intro Z; apply D; lra.
Qed.
(** The Mach number and the two angles are where the factor is defined. *)
Definition forward_regular (e : env) : Prop :=
  let w := tan (e Aircraft_Wing_SWEEP / (PI / 180)) in
  let th := (1 - e Aircraft_Wing_TAPER_RATIO) / (1 + e Aircraft_Wing_TAPER_RATIO) / e Aircraft_Wing_ASPECT_RATIO in
  cos (e Aircraft_Wing_SWEEP / (PI / 180)) <> 0 /\
  regular (e Dynamic_Atmosphere_MACH) (1 / sqrt (1 + (w - 3 * th) ^ 2)) (1 / sqrt (1 + (w + th) ^ 2)).

Definition dcayt (m w th da db : R) : R :=
  (f5 m (cosA w th) / f5 m (cosB w th) - 1) * (- 11 / 100 * m / (f5 m (cosB w th) * fA m (cosA w th) ^ 2)) * da +
  (f5 m (cosA w th) / f5 m (cosB w th) - 1) * (11 / 100 * f5 m (cosA w th) * m / (fA m (cosB w th) ^ 2 * f5 m (cosB w th) ^ 2)) * db.
Lemma cayt_two m (A B : R -> R) x da db : regular m (A x) (B x) -> is_derive A x da -> is_derive B x db ->
  is_derive (fun t => cayt m (A t) (B t)) x
  ((f5 m (A x) / f5 m (B x) - 1) * (- 11 / 100 * m / (f5 m (B x) * fA m (A x) ^ 2)) * da +
   (f5 m (A x) / f5 m (B x) - 1) * (11 / 100 * f5 m (A x) * m / (fA m (B x) ^ 2 * f5 m (B x) ^ 2)) * db).
Proof.
  intros (P & Q & S) DA DB. assert (D := regular_third m (B x) Q S).
  assert (EA : ex_derive A x) by (now exists da). assert (EB : ex_derive B x) by (now exists db).
  unfold cayt, f5, fA. auto_derive; minus_div; [tauto|].
  put_derive DA. put_derive DB.
  field. repeat split; try lra; intro Z; apply D; lra.
Qed.
Lemma with_constant (B cl : R -> R) k x dB dcl : is_derive B x dB -> is_derive cl x dcl ->
  is_derive (fun t => B t + k * cl t ^ 2) x (dB + 2 * k * cl x * dcl).
Proof.
  intros DB DC. assert (EB : ex_derive B x) by (now exists dB). assert (EC : ex_derive cl x) by (now exists dcl).
  auto_derive; [tauto|]. put_derive DB. put_derive DC. ring.
Qed.
Lemma with_factor (B cl K : R -> R) x dB dcl dk : is_derive B x dB -> is_derive cl x dcl -> is_derive K x dk ->
  is_derive (fun t => B t + K t * cl t ^ 2) x (dB + (2 * K x * cl x * dcl + cl x ^ 2 * dk)).
Proof.
  intros DB DC DK. assert (EB : ex_derive B x) by (now exists dB). assert (EC : ex_derive cl x) by (now exists dcl).
  assert (EK : ex_derive K x) by (now exists dk).
  auto_derive; [tauto|]. put_derive DB. put_derive DC. put_derive DK. ring.
Qed.
(** Through the taper term, with the derivatives in the order of the source. *)
Lemma with_taper (B TH : R -> R) cl m w x dB dth : regular m (cosA w (TH x)) (cosB w (TH x)) ->
  is_derive B x dB -> is_derive TH x dth ->
  is_derive (fun t => B t + cayt m (cosA w (TH t)) (cosB w (TH t)) * cl ^ 2) x
  (dB + cl ^ 2 * dth * dcayt m w (TH x) (5 / 10 / (1 + (w - 3 * TH x) ^ 2) ** (15 / 10) * 6 * (w - 3 * TH x))
     (- 5 / 10 / (1 + (w + TH x) ^ 2) ** (15 / 10) * 2 * (w + TH x))).
Proof.
  intros G DB DT.
  assert (DA : is_derive (fun t => cosA w (TH t)) x (dth * (5 / 10 / (1 + (w - 3 * TH x) ^ 2) ** (15 / 10) * 6 * (w - 3 * TH x))))
    by (apply (is_derive_comp (fun u => cosA w u) TH); [apply cosA_th|exact DT]).
  assert (DC : is_derive (fun t => cosB w (TH t)) x (dth * (- 5 / 10 / (1 + (w + TH x) ^ 2) ** (15 / 10) * 2 * (w + TH x))))
    by (apply (is_derive_comp (fun u => cosB w u) TH); [apply cosB_th|exact DT]).
  pose proof (cayt_two m _ _ x _ _ G DA DC) as DK. cbv beta in DK.
  eapply is_derive_eq.
  - eapply (with_factor B (fun _ => cl) _ x dB 0 _ DB); [apply (is_derive_const (V := R_NormedModule))|exact DK].
  - cbv beta. unfold dcayt. match goal with |- @eq _ ?a ?b => change (@eq R a b) end. ring.
Qed.
Lemma with_sweep (B W : R -> R) cl m th x dB dw : regular m (cosA (W x) th) (cosB (W x) th) ->
  is_derive B x dB -> is_derive W x dw ->
  is_derive (fun t => B t + cayt m (cosA (W t) th) (cosB (W t) th) * cl ^ 2) x
  (dB + cl ^ 2 * dw * dcayt m (W x) th (- 5 / 10 / (1 + (W x - 3 * th) ^ 2) ** (15 / 10) * 2 * (W x - 3 * th))
     (- 5 / 10 / (1 + (W x + th) ^ 2) ** (15 / 10) * 2 * (W x + th))).
Proof.
  intros G DB DT.
  assert (DA : is_derive (fun t => cosA (W t) th) x (dw * (- 5 / 10 / (1 + (W x - 3 * th) ^ 2) ** (15 / 10) * 2 * (W x - 3 * th))))
    by (apply (is_derive_comp (fun u => cosA u th) W); [apply cosA_w|exact DT]).
  assert (DC : is_derive (fun t => cosB (W t) th) x (dw * (- 5 / 10 / (1 + (W x + th) ^ 2) ** (15 / 10) * 2 * (W x + th))))
    by (apply (is_derive_comp (fun u => cosB u th) W); [apply cosB_w|exact DT]).
  pose proof (cayt_two m _ _ x _ _ G DA DC) as DK. cbv beta in DK.
  eapply is_derive_eq.
  - eapply (with_factor B (fun _ => cl) _ x dB 0 _ DB); [apply (is_derive_const (V := R_NormedModule))|exact DK].
  - cbv beta. unfold dcayt. match goal with |- @eq _ ?a ?b => change (@eq R a b) end. ring.
Qed.
Ltac taper_form :=
  repeat match goal with |- context [(1 - ?x) * (1 / (1 + ?x)) / ?a] =>
    replace ((1 - x) * (1 / (1 + x)) / a) with ((1 - x) / (1 + x) / a) by (field; lra) end.
Lemma one_tan x : cos x <> 0 -> 1 + tan x * (tan x * 1) = 1 / cos x ^ 2.
Proof. intro N. unfold tan. pose proof (sin2_cos2 x) as Q. unfold Rsqr in Q. field_simplify; [|assumption|assumption]. f_equal. nra. Qed.
Ltac tan_side := minus_div; rewrite one_tan by assumption; field; repeat split; nonzero.
Ltac side_derive := auto_derive; [minus_div; repeat split; try trivial; try nonzero | first [tan_side | field; repeat split; nonzero]].
Ltac regular_by := repeat split; assumption.
Ltac forward_case :=
  taper_form;
  match goal with
  | |- is_derive (fun t => @?B t + 5 / 10 * ((11 / 10 - 11 / 100 / (11 / 10 - @?m t * (1 / sqrt (1 + (@?w t - 3 * @?th t) ^ 2)))) / _ - 1) ^ 2 *
         (@?cl t) ^ 2) ?x ?d =>
      change (is_derive (fun t => B t + cayt (m t) (cosA (w t) (th t)) (cosB (w t) (th t)) * cl t ^ 2) x d); cbv beta;
      match d with
      | _ + (_ * ?a + _ * _) => apply (with_factor B cl (fun t => cayt t (cosA (w x) (th x)) (cosB (w x) (th x)))); [side_derive|side_derive|apply cayt_m; regular_by]
      | _ + _ * ?u * (_ * _ + _ * _) =>
         first [apply (with_taper B th (cl x) (m x) (w x)); [regular_by|side_derive|side_derive]
               |apply (with_sweep B w (cl x) (m x) (th x)); [regular_by|side_derive|side_derive]]
      | _ + 2 * _ * _ * ?u => apply (with_constant B cl (cayt (m x) (cosA (w x) (th x)) (cosB (w x) (th x)))); side_derive
      end
  end.
Theorem C60_InducedDragForward op : positive [v_gamma] (on op) -> exact_nodes InducedDragForward_shared (InducedDragForward op) (fun e =>
  positive [Dynamic_Atmosphere_MACH; Dynamic_Atmosphere_STATIC_PRESSURE; Aircraft_Wing_AREA; Aircraft_Wing_ASPECT_RATIO;
    Aircraft_Wing_SPAN_EFFICIENCY_FACTOR; Aircraft_Wing_TAPER_RATIO] e /\ e Aircraft_Wing_SPAN_EFFICIENCY_FACTOR <> 3 / 10 /\
    e Aircraft_Wing_SWEEP < 0 /\ forward_regular e) [].
Proof.
  intro Dop. pose proof PI_RGT_0 as Pi. apply nodes_exact. exact_start; exact_prepare.
  all: try forward_case.
  all: match goal with |- is_derive (fun t => @?B t + ?k) ?x ?d =>
    let K := fresh "K" in generalize k; intro K; change (is_derive (fun t => B t + K) x d); cbv beta end.
  all: repeat settle; derive_goal; pw_field.
Qed.
Print Assumptions C60_InducedDragForward.
Example C60_witness_InducedDragForward : let e : env := fun v => if String.eqb v Aircraft_Wing_SWEEP then - (PI ^ 2 / 180) else if String.eqb v Dynamic_Atmosphere_MACH then 1 / 2 else 1 in
  e Aircraft_Wing_SWEEP < 0 /\ forward_regular e.
Proof.
  pose proof PI_RGT_0 as P. cbv zeta. unfold forward_regular, regular. simpl.
  replace (- (PI * (PI * 1) / 180) / (PI / 180)) with (- PI) by (field; lra).
  unfold tan. rewrite sin_neg, cos_neg, sin_PI, cos_PI.
  replace ((1 - 1) / (1 + 1) / 1) with 0 by field. replace (- 0 / -1) with 0 by field.
  replace (1 + (0 - 3 * 0) * ((0 - 3 * 0) * 1)) with 1 by ring. replace (1 + (0 + 0) * ((0 + 0) * 1)) with 1 by ring. rewrite sqrt_1.
  repeat split; try lra. assert (0 < PI * PI) by (now apply Rmult_lt_0_compat). lra.
Qed.

Lemma tan_minus_PI x : cos x <> 0 -> tan (x - PI) = tan x.
Proof.
  intro N. unfold tan. rewrite sin_minus, cos_minus, cos_PI, sin_PI. field. exact N.
Qed.
(** The sweep is given in degrees, and divided by pi / 180 instead of multiplied: the drag has a period of pi^2 / 180 degrees,
    about 0.055 degrees. *)
Theorem C60_forward_sweep_period_refuted op e : cos (e Aircraft_Wing_SWEEP / (PI / 180)) <> 0 ->
  out (InducedDragForward op) (upd e Aircraft_Wing_SWEEP (e Aircraft_Wing_SWEEP - PI ^ 2 / 180)) v_induced_drag_coeff =
  out (InducedDragForward op) e v_induced_drag_coeff.
Proof.
  intro N. pose proof PI_RGT_0 as P. cbv [out InducedDragForward c_run InducedDragForward_compute dget upd]. simpl.
  replace ((e Aircraft_Wing_SWEEP - PI * (PI * 1) / 180) / (PI / 180)) with (e Aircraft_Wing_SWEEP / (PI / 180) - PI) by (field; lra).
  rewrite (tan_minus_PI _ N). reflexivity.
Qed.
Print Assumptions C60_forward_sweep_period_refuted.
Example C60_witness_forward_sweep : PI ^ 2 / 180 < 1.
Proof. pose proof PI_4. pose proof PI_RGT_0. simpl. nra. Qed.
