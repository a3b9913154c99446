(** Lemmas and tactics for GASP geometry. *)
From Coq Require Import Reals Lra Lia.
From Coquelicot Require Import Coquelicot.
From Verif Require Import Base Calc MathModel MathProofs Comp CompMore CompFun GGeomModel.
Local Open Scope R_scope.

Ltac facts ::= cases_of; rewrite ?cos_0, ?sin_0; pose proof PI_RGT_0.
Ltac sum_pos := minus_div; fold_pow; first [apply Rplus_lt_le_0_compat; [pos|apply pow2_ge_0] | apply Rplus_le_lt_0_compat; [apply pow2_ge_0|pos]].
Ltac tan_pair :=
  minus_div; fold_pow;
  match goal with C : cos ?a <> 0, T : tan ?a <> 0 |- _ => rewrite ?(tan_sq a C); revert C T; generalize (cos a) (tan a); intros ? ? C T end;
  field; repeat split; nonzero.
Lemma sqrt_four x : 0 < x -> sqrt (4 * x) = 2 * sqrt x.
Proof. intro H. rewrite sqrt_mult by lra. replace 4 with (2 * 2) by ring. rewrite sqrt_square by lra. reflexivity. Qed.
Ltac strut_goal :=
  minus_div; fold_pow;
  match goal with |- context [(?a / 2 - ?w / 2) ^ 2 + ?w ^ 2] =>
    let Q := fresh "Q" in
    assert (Q : 0 < (a / 2 - w / 2) ^ 2 + w ^ 2) by sum_pos;
    replace (5 * w ^ 2 - 4 * w * (a / 2) + 4 * (a / 2) ^ 2) with (4 * ((a / 2 - w / 2) ^ 2 + w ^ 2)) by field;
    rewrite ?(half_down (-5 / 10) 1 _ Q) by (simpl; field); rewrite ?(sqrt_four _ Q);
    assert (0 < sqrt ((a / 2 - w / 2) ^ 2 + w ^ 2)) by (now apply sqrt_lt_R0);
    generalize dependent (sqrt ((a / 2 - w / 2) ^ 2 + w ^ 2)); intros
  end; first [assumption | apply Rgt_not_eq; assumption | field; lra].
Ltac sweep_goal :=
  minus_div; fold_pow;
  match goal with C : cos ?a <> 0 |- context [tan (PI * ?s / 180)] =>
    replace (PI * s / 180) with a by field; rewrite ?(tan_sq a C); revert C; generalize (cos a) (tan a); intros c t C;
    match goal with |- context [?r ^ 2 * (?u + 1) ^ 2 + ?w ^ 2] =>
      let Q := fresh "Q" in let K := fresh "K" in
      assert (Q : 0 < r ^ 2 * (u + 1) ^ 2 + w ^ 2) by sum_pos;
      assert (K : 1 + ((1 - u) / (1 + u) / r + t) ^ 2 = (r ^ 2 * (u + 1) ^ 2 + w ^ 2) / (r ^ 2 * (u + 1) ^ 2)) by (field; lra);
      rewrite K; clear K; revert Q; generalize (r ^ 2 * (u + 1) ^ 2 + w ^ 2); intros q Q
    end
  end; field; repeat split; nonzero.
Ltac square_goal :=
  minus_div; fold_pow;
  match goal with |- context [sqrt ?x] =>
    repeat match goal with |- context [sqrt ?y] => tryif constr_eq x y then fail else replace (sqrt y) with (sqrt x) by (f_equal; field; repeat split; nonzero) end;
    let s := fresh "s" in let S := fresh "S" in let E := fresh "E" in
    assert (S : 0 < sqrt x) by (apply sqrt_lt_R0; pos); assert (E : sqrt x ^ 2 = x) by (apply pow2_sqrt; left; pos);
    revert S E; generalize (sqrt x); intros s S E
  end.
Ltac root_value := red_comp; cbv [on ob oe unit_options]; repeat match goal with |- context [sqrt ?x] => replace x with 1 by field; rewrite sqrt_1 end; field.
Lemma scaled_iff c e o i k :
  is_derive (fun t => out c (upd e i t) o) (e i) (k * jac c e o i) -> (exact_at c e o i <-> k = 1 \/ jac c e o i = 0).
Proof.
  intro S. unfold exact_at. split.
  - intro E. apply is_derive_unique in E. apply is_derive_unique in S. rewrite E in S.
    destruct (Req_dec (jac c e o i) 0) as [Z|Z]; [now right|left].
    apply (Rmult_eq_reg_r (jac c e o i)); [|exact Z]. rewrite Rmult_1_l. now symmetry.
  - intro E. eapply is_derive_eq; [exact S|]. destruct E as [-> | ->]; [apply Rmult_1_l | apply Rmult_0_r].
Qed.
(** The fuel volume of a tapered wing and its rate. *)
Definition vol (f tc s sl ar : R) : R := f * (888889 / 1000000) * tc * s ** (15 / 10) * (2 * sl + 1) / (ar ** (5 / 10) * (sl + 1) ^ 2).
Definition vol_rate (f tc s sl ar df dtc ds dsl dar : R) : R :=
  (888889 / 1000000) / (ar ** (5 / 10) * (sl + 1) ^ 2) *
  (df * tc * s ** (15 / 10) * (2 * sl + 1) + f * dtc * s ** (15 / 10) * (2 * sl + 1) + f * tc * (15 / 10 * s ** (5 / 10)) * ds * (2 * sl + 1)
   + f * tc * s ** (15 / 10) * (2 * dsl) - f * tc * s ** (15 / 10) * (2 * sl + 1) * (5 / 10 * dar / ar + 2 * dsl / (sl + 1))).
Lemma pw_three_half s : 0 < s -> s ** (15 / 10) = s * s ** (5 / 10).
Proof. intro H. rewrite (half_up (15 / 10) 3), (half_up (5 / 10) 1) by (assumption || simpl; lra). simpl. rewrite !Rmult_1_r. rewrite <- Rmult_assoc, sqrt_sqrt by lra. reflexivity. Qed.
Lemma pw_half_sq s : 0 < s -> s ** (5 / 10) * s ** (5 / 10) = s.
Proof. intro H. rewrite (half_up (5 / 10) 1) by (assumption || simpl; lra). simpl. rewrite Rmult_1_r. apply sqrt_sqrt. lra. Qed.
Lemma vol_derive f tc s sl ar x df dtc ds dsl dar :
  is_derive f x df -> is_derive tc x dtc -> is_derive s x ds -> is_derive sl x dsl -> is_derive ar x dar ->
  0 < s x -> 0 < ar x -> sl x + 1 <> 0 ->
  is_derive (fun t => vol (f t) (tc t) (s t) (sl t) (ar t)) x (vol_rate (f x) (tc x) (s x) (sl x) (ar x) df dtc ds dsl dar).
Proof.
  intros F T S L A PS PA PL. unfold vol.
  assert (EF : ex_derive f x) by (eexists; exact F). assert (ET : ex_derive tc x) by (eexists; exact T). assert (ES : ex_derive s x) by (eexists; exact S).
  assert (EL : ex_derive sl x) by (eexists; exact L). assert (EA : ex_derive ar x) by (eexists; exact A).
  pose proof (pw_pos (5 / 10) (ar x) PA) as QA. pose proof (pw_pos (5 / 10) (s x) PS) as QS.
  auto_derive.
  - repeat split; try assumption. apply Rmult_integral_contrapositive_currified; [lra|]. rewrite Rmult_1_r.
    now apply Rmult_integral_contrapositive_currified.
  - assert (DT : Derive (fun y => tc y) x = dtc) by exact (is_derive_unique _ _ _ T). assert (DS : Derive (fun y => s y) x = ds) by exact (is_derive_unique _ _ _ S).
    assert (DL : Derive (fun y => sl y) x = dsl) by exact (is_derive_unique _ _ _ L). assert (DA : Derive (fun y => ar y) x = dar) by exact (is_derive_unique _ _ _ A).
    assert (DF : Derive (fun y => f y) x = df) by exact (is_derive_unique _ _ _ F).
    rewrite DF, DT, DS, DL, DA.
    replace (15 / 10 - 1) with (5 / 10) by field. rewrite (pw_three_half _ PS).
    assert (E : ar x ** (5 / 10 - 1) = ar x ** (5 / 10) / ar x).
    { rewrite (half_up (5 / 10) 1), (half_down (5 / 10 - 1) 1) by (assumption || simpl; lra). simpl.
      pose proof (sqrt_lt_R0 _ PA). rewrite <- (sqrt_sqrt (ar x)) at 3 by lra. field. lra. }
    rewrite E. unfold vol_rate. rewrite (pw_three_half _ PS).
    revert QA QS. generalize (ar x ** (5 / 10)) (s x ** (5 / 10)). intros qa qs QA QS. field. repeat split; lra.
Qed.
Lemma half_inv a : 0 < a -> a ** (-5 / 10) = a ** (5 / 10) / a.
Proof.
  intro H. rewrite (half_up (5 / 10) 1), (half_down (-5 / 10) 1) by (assumption || simpl; lra). simpl.
  pose proof (sqrt_lt_R0 _ H). rewrite <- (sqrt_sqrt a) at 3 by lra. field. lra.
Qed.

Ltac vol_goal ps pa pl :=
  lazymatch goal with |- is_derive (fun t => (@?f t) * (@?k t) * (@?tc t) * pw _ (@?s t) * (2 * (@?sl t) + 1) / (pw _ (@?ar t) * _)) ?x ?d =>
    let s0 := eval cbv beta in (s x) in let sl1 := eval cbv beta in (sl x) in let ar0 := eval cbv beta in (ar x) in
    let PS := fresh "PS" in let PA := fresh "PA" in let PL := fresh "PL" in
    assert (PS : 0 < s0) by ps; assert (PA : 0 < ar0) by pa;
    assert (PL : 0 < sl1 + 1) by pl;
    eapply is_derive_eq;
    [refine (vol_derive f tc s sl ar x _ _ _ _ _ _ _ _ _ _ PS PA (Rgt_not_eq _ _ PL));
     cbv beta; (auto_derive; [minus_div; derive_side|reflexivity])|];
    cbv beta; unfold vol_rate; minus_div;
    rewrite ?(half_inv ar0 PA), ?(pw_three_half s0 PS);
    let QS := fresh "QS" in let QA := fresh "QA" in let EA := fresh "EA" in
    pose proof (pw_pos (5 / 10) s0 PS) as QS; pose proof (pw_pos (5 / 10) ar0 PA) as QA; pose proof (pw_half_sq ar0 PA) as EA;
    revert PL; generalize sl1; intros sl' PL;
    generalize dependent (pw (5 / 10) s0); intros q QS;
    generalize dependent (pw (5 / 10) ar0); intros p QA EA
  end.
Lemma taper_pos c k b t : 0 < c -> 0 < k -> 0 < b -> 0 < t -> 2 * k < b -> 0 < (c + k * (t * c - c) / (b / 2)) / c + 1.
Proof.
  intros C K B T L. replace ((c + k * (t * c - c) / (b / 2)) / c + 1) with (2 + 2 * k / b * (t - 1)) by (field; lra).
  assert (0 < 2 * k / b) by (apply Rdiv_lt_0_compat; lra). assert (2 * k / b < 1) by (apply Rlt_div_l; lra). nra.
Qed.

Ltac unify_plain := match goal with |- ?a = ?b => change (@eq R a b) end.
Ltac finish_vol :=
  match goal with E : ?p * ?p = ?a |- _ => rewrite <- ?E end;
  unify_plain; field; repeat split; nonzero.

Lemma chord_pos c h t b : 0 < c -> 0 < h -> 0 < t -> 0 < b -> 2 * h < b -> 0 < c + 2 * h * (t * c - c) / b.
Proof.
  intros C H T B L. replace (c + 2 * h * (t * c - c) / b) with (c * ((b - 2 * h) + 2 * h * t) / b) by (field; lra).
  apply Rdiv_lt_0_compat; [|lra]. apply Rmult_lt_0_compat; [lra|]. apply Rplus_lt_0_compat; [lra|]. apply Rmult_lt_0_compat; lra.
Qed.
Lemma chord_same c h t b : c + 2 * h * (t - 1) * c / b = c + 2 * h * (t * c - c) / b.
Proof. unfold Rdiv. ring. Qed.
Ltac bwb_volume :=
  rewrite ?chord_same;
  lazymatch goal with |- is_derive (fun t => (@?f t) * (@?k t) * (@?tc t) * pw _ ((5 / 10 * _ - (@?h t)) * ((@?cf t) + _)) * (2 * (@?sl t) + 1) / (pw _ (@?ar t) * _)) ?x ?d =>
    let h0 := eval cbv beta in (h x) in let cf0 := eval cbv beta in (cf x) in
    let H0 := fresh "H0" in let C0 := fresh "C0" in
    assert (H0 : 0 < h0) by lra; assert (C0 : 0 < cf0) by (apply chord_pos; lra);

    vol_goal ltac:(apply Rmult_lt_0_compat; [lra|apply Rplus_lt_0_compat; [assumption|pos]]) ltac:(apply Rdiv_lt_0_compat; [apply pow_lt; lra|assumption]) ltac:(apply Rplus_lt_0_compat; [apply Rdiv_lt_0_compat; [pos|assumption]|lra]); generalize dependent cf0; intros
  end.

Ltac gear_width :=
  try match goal with I : in_range ?r 0 ?m |- context [6 * sigf 0 ?m ?r] =>
    let P := fresh "P" in let Q := fresh "Q" in
    assert (P : 0 < 6 * sigf 0 m r) by (pose proof (sigf_pos r 0 m ltac:(lra) I); lra);
    assert (Q : 6 * sigf 0 m r < 6) by (pose proof (sigf_lt_1 r 0 m ltac:(lra) I); lra);
    revert P Q; generalize (6 * sigf 0 m r); intros ? P Q
  end.
