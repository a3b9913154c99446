(** Ground effect: claim C60. *)
From Coq Require Import Reals Lra Lia.
From Coquelicot Require Import Coquelicot.
From Verif Require Import Base Calc MathModel MathProofs Comp CompMore CompFun FAeroModel FAeroProofs.
Local Open Scope R_scope.

(** The two denominators of the ground effect, and how the coefficients change with the state, the aspect ratio term and the
    height factor. *)
Definition Lf (g a : R) : R := 32 * (g * a) ^ 2 + 1 - 5 / 10 + 4 * g * a * sqrt (32 * (g * a) ^ 2 + 1).
Definition Df (g : R) : R := 4 * g * sqrt (1 + 32 * g ^ 2) + (1 + 32 * g ^ 2).
Lemma Lf_pos g a : 0 < g -> 0 < a -> 0 < Lf g a.
Proof. intros G A. unfold Lf. assert (0 < g * a) by (now apply Rmult_lt_0_compat). pose proof (sqrt_pos (32 * (g * a) ^ 2 + 1)). nra. Qed.
Lemma Df_pos g : 0 < g -> 0 < Df g.
Proof. intros G. unfold Df. pose proof (sqrt_pos (1 + 32 * g ^ 2)). nra. Qed.
Definition dLf (g a dg da s : R) : R :=
  64 * (g * a) * (dg * a + g * da) + 4 * ((dg * a + g * da) * s + g * a * (64 * (g * a) * (dg * a + g * da)) / (2 * s)).
Definition dDf (g dg s : R) : R := 4 * (dg * s + g * (64 * g * dg) / (2 * s)) + 64 * g * dg.
Lemma lift_rate (g a h : R -> R) x dg da dh : is_derive g x dg -> is_derive a x da -> is_derive h x dh -> 0 < g x -> 0 < a x ->
  is_derive (fun t => 1 + h t / Lf (g t) (a t)) x
  ((dh * Lf (g x) (a x) - h x * dLf (g x) (a x) dg da (sqrt (32 * (g x * a x) ^ 2 + 1))) / Lf (g x) (a x) ^ 2).
Proof.
  intros DG DA DH G A. assert (P := Lf_pos _ _ G A).
  assert (EG : ex_derive g x) by (now exists dg). assert (EA : ex_derive a x) by (now exists da). assert (EH : ex_derive h x) by (now exists dh).
  assert (GA : 0 < g x * a x) by (now apply Rmult_lt_0_compat).
  assert (Q : 0 < 32 * (g x * a x) ^ 2 + 1) by nra. assert (S := sqrt_lt_R0 _ Q).
  unfold Lf, dLf in *. auto_derive; minus_div.
  - fold_pow. repeat split; trivial; apply Rgt_not_eq; exact P.
  - put_derive DG. put_derive DA. put_derive DH. fold_pow. revert P S. generalize (sqrt (32 * (g x * a x) ^ 2 + 1)) (sqrt (1 + 32 * g x ^ 2)). intros s s2 P S. field. split; intro; lra.
Qed.
Lemma drag_rate (g h : R -> R) x dg dh : is_derive g x dg -> is_derive h x dh -> 0 < g x ->
  is_derive (fun t => 1 - h t / Df (g t)) x
  (- (dh * Df (g x) - h x * dDf (g x) dg (sqrt (1 + 32 * g x ^ 2))) / Df (g x) ^ 2).
Proof.
  intros DG DH G. assert (P := Df_pos _ G).
  assert (EG : ex_derive g x) by (now exists dg). assert (EH : ex_derive h x) by (now exists dh).
  assert (Q : 0 < 1 + 32 * g x ^ 2) by nra. assert (S := sqrt_lt_R0 _ Q).
  unfold Df, dDf in *. auto_derive; minus_div.
  - fold_pow. repeat split; trivial; apply Rgt_not_eq; exact P.
  - put_derive DG. put_derive DH. fold_pow. revert P S. generalize (sqrt (1 + 32 * g x ^ 2)). intros s2 P S. field. split; intro; lra.
Qed.
Lemma lift_case (g a h : R -> R) x dg da dh c : is_derive g x dg -> is_derive a x da -> is_derive h x dh -> 0 < g x -> 0 < a x ->
  is_derive (fun t => c * (1 + h t / Lf (g t) (a t))) x
  (c * ((dh * Lf (g x) (a x) - h x * dLf (g x) (a x) dg da (sqrt (32 * (g x * a x) ^ 2 + 1))) / Lf (g x) (a x) ^ 2)).
Proof. intros. apply (is_derive_scal (fun t => 1 + h t / Lf (g t) (a t)) x c). now apply lift_rate. Qed.
Lemma product_case (F H : R -> R) x l d m k c : is_derive F x l -> is_derive H x d ->
  is_derive (fun t => m + F t * H t * k + c * (F t - 1)) x ((l * H x + F x * d) * k + c * l).
Proof.
  intros L D. assert (EL : ex_derive F x) by (now exists l). assert (ED : ex_derive H x) by (now exists d).
  auto_derive; [tauto|]. put_derive L. put_derive D. match goal with |- @eq _ ?a ?b => change (@eq R a b) end. ring.
Qed.
Lemma drag_case (g a h : R -> R) x dg da dh m k c : is_derive g x dg -> is_derive a x da -> is_derive h x dh -> 0 < g x -> 0 < a x ->
  is_derive (fun t => m + (1 + h t / Lf (g t) (a t)) * (1 - h t / Df (g t)) * k + c * (1 + h t / Lf (g t) (a t) - 1)) x
  ((((dh * Lf (g x) (a x) - h x * dLf (g x) (a x) dg da (sqrt (32 * (g x * a x) ^ 2 + 1))) / Lf (g x) (a x) ^ 2) * (1 - h x / Df (g x)) +
    (1 + h x / Lf (g x) (a x)) * (- (dh * Df (g x) - h x * dDf (g x) dg (sqrt (1 + 32 * g x ^ 2))) / Df (g x) ^ 2)) * k +
   c * ((dh * Lf (g x) (a x) - h x * dLf (g x) (a x) dg da (sqrt (32 * (g x * a x) ^ 2 + 1))) / Lf (g x) (a x) ^ 2)).
Proof.
  intros DG DA DH G A. pose proof (lift_rate g a h x dg da dh DG DA DH G A) as L. pose proof (drag_rate g h x dg dh DG DH G) as D.
  exact (product_case _ _ _ _ _ m k c L D).
Qed.

Definition ges (op : options) (e : env) : R := (e Dynamic_Mission_ALTITUDE - on op v_ground_altitude + e Aircraft_Wing_HEIGHT) / e Aircraft_Wing_SPAN.
Ltac art_pos := match goal with |- 0 < (6 + ?r) ^ 2 / (36 + ?r) => apply Rdiv_lt_0_compat; nra end.
Ltac ge_side := first [apply (is_derive_const (V := R_NormedModule)) | auto_derive; [minus_div; repeat split; trivial; apply Rgt_not_eq; lra | reflexivity]].
Ltac ge_fold :=
  repeat match goal with |- context [32 * (?g * ?a) ^ 2 + 1 - 5 / 10 + 4 * ?g * ?a * sqrt _] =>
    change (32 * (g * a) ^ 2 + 1 - 5 / 10 + 4 * g * a * sqrt (32 * (g * a) ^ 2 + 1)) with (Lf g a) end;
  repeat match goal with |- context [4 * ?g * sqrt (1 + 32 * ?g ^ 2) + (1 + 32 * ?g ^ 2)] =>
    change (4 * g * sqrt (1 + 32 * g ^ 2) + (1 + 32 * g ^ 2)) with (Df g) end.
Ltac ge_pos :=
  repeat match goal with |- context [Lf ?g ?a] => let P := fresh "P" in
    assert (P : 0 < Lf g a) by (apply Lf_pos; [assumption | art_pos]); revert P; generalize (Lf g a); intros ? P end;
  repeat match goal with |- context [Df ?g] => let P := fresh "P" in
    assert (P : 0 < Df g) by (apply Df_pos; assumption); revert P; generalize (Df g); intros ? P end.
Ltac ge_small :=
  unfold dLf, dDf;
  repeat match goal with |- context [sqrt ?u] => let P := fresh "P" in
    assert (P : 0 < sqrt u) by (apply sqrt_lt_R0; clear; match goal with |- context [?y ^ 2] => pose proof (pow2_ge_0 y); lra end);
    revert P; generalize (sqrt u); intros ? P end;
  repeat match goal with |- context [?a - ?b + ?c] => generalize (a - b + c); intro end;
  try match goal with |- context [(2 * (6 + ?r) * (36 + ?r) - (6 + ?r) ^ 2 * 1) / (36 + ?r) ^ 2] =>
    generalize ((2 * (6 + r) * (36 + r) - (6 + r) ^ 2 * 1) / (36 + r) ^ 2); intro end;
  try match goal with |- context [(6 + ?r) ^ 2 / (36 + ?r)] => generalize ((6 + r) ^ 2 / (36 + r)); intro end;
  match goal with |- @eq _ ?a ?b => change (@eq R a b) end;
  field; repeat split; apply Rgt_not_eq; lra.
Ltac ge_same :=
  try match goal with
  | |- context [dDf ?g ?dg ?s] =>
      match goal with |- _ = ?rhs => match rhs with context [_ * Df g - _ * ?y] =>
        replace (dDf g dg s) with y by (symmetry; ge_small); generalize y; intro end end
  end;
  try match goal with
  | |- context [dDf ?g 0 ?s] => replace (dDf g 0 s) with 0 by (symmetry; ge_small) end;
  match goal with
  | |- context [dLf ?g ?a ?dg ?da ?s] =>
      match goal with |- _ = ?rhs =>
        first [match rhs with context [(_ * Lf g a - _ * ?y) / Lf g a ^ 2] =>
                 replace (dLf g a dg da s) with y by (symmetry; ge_small); generalize y; intro end
              |match rhs with context [- _ * ?y / Lf g a ^ 2] =>
                 replace (dLf g a dg da s) with y by (symmetry; ge_small); generalize y; intro end] end
  end;
  ge_pos;
  repeat match goal with |- context [?a - ?b + ?c] => generalize (a - b + c); intro end;
  match goal with |- @eq _ ?a ?b => change (@eq R a b) end;
  field; repeat split; apply Rgt_not_eq; lra.
Lemma art_rate r : 0 < r -> is_derive (fun t => (6 + t) ^ 2 / (36 + t)) r ((2 * (6 + r) * (36 + r) - (6 + r) ^ 2 * 1) / (36 + r) ^ 2).
Proof. intro P. auto_derive; [lra|field; lra]. Qed.
Ltac ge_side ::= lazymatch goal with |- is_derive (fun _ => ?c) _ _ => apply (is_derive_const (V := R_NormedModule)) | |- is_derive (fun t => (6 + t) ^ 2 / _) _ _ => apply art_rate; assumption | _ => auto_derive; [minus_div; repeat split; trivial; apply Rgt_not_eq; lra | minus_div; reflexivity] end.
Ltac ge_case :=
  match goal with
  | |- is_derive (fun t => ?c * (1 + @?h t / (32 * (@?g t * @?a t) ^ 2 + _ - _ + _))) ?x ?d =>
      change (is_derive (fun t => c * (1 + h t / Lf (g t) (a t))) x d);
      eapply is_derive_eq; [eapply (lift_case g a h); [ge_side|ge_side|ge_side|assumption|art_pos]|cbv beta]
  | |- is_derive (fun t => ?m + (1 + @?h t / (32 * (@?g t * @?a t) ^ 2 + _ - _ + _)) * _ * ?k + ?c * _) ?x ?d =>
      change (is_derive (fun t => m + (1 + h t / Lf (g t) (a t)) * (1 - h t / Df (g t)) * k + c * (1 + h t / Lf (g t) (a t) - 1)) x d);
      eapply is_derive_eq; [eapply (drag_case g a h); [ge_side|ge_side|ge_side|assumption|art_pos]|cbv beta]
  end; change (@zero R_NormedModule) with 0; ge_fold; ge_same.
Ltac ge_const := ge_fold; ge_pos; auto_derive; [minus_div; repeat split; trivial | minus_div; try (field; repeat split; apply Rgt_not_eq; lra)].
Theorem C60_GroundEffect op : exact_nodes GroundEffect_shared (GroundEffect op) (fun e =>
  positive [Aircraft_Wing_ASPECT_RATIO; Aircraft_Wing_SPAN] e /\ 0 < ges op e /\ ges op e <> 1 /\ ges op e <> 11 / 10) [].
Proof.
  unfold ges. apply nodes_exact. exact_start; exact_prepare.
  all: repeat settle.
  all: try match goal with |- is_derive (fun _ => ?c) _ _ => apply (is_derive_const (V := R_NormedModule)) end.
  all: ge_fold; try (lazymatch goal with |- is_derive ?f _ _ => lazymatch f with context [sqrt] => ge_case | _ => ge_const end end).
Qed.
Print Assumptions C60_GroundEffect.
Example C60_witness_GroundEffect : let e : env := fun v => if String.eqb v Aircraft_Wing_SPAN then 2 else 1 in ges unit_options e = 1 / 2.
Proof. cbv zeta. unfold ges. simpl. lra. Qed.
