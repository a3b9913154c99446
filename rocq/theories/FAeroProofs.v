(** Proofs for FLOPS based aerodynamics: tables, their clamped values and products. *)
From Coq Require Import Reals Lra Lia.
From Coquelicot Require Import Coquelicot.
From Verif Require Import Base Calc MathModel MathProofs Comp CompMore CompFun FAeroModel.
Local Open Scope R_scope.

Ltac put_derive D := match type of D with is_derive ?f ?x ?d =>
  replace (Derive (fun u : R => f u) x) with d by (symmetry; apply is_derive_unique; exact D) end.
Ltac known D := match type of D with is_derive ?f ?x ?d => let E := fresh "E" in assert (E : ex_derive f x) by (now exists d) end.
Ltac plain := match goal with |- @eq _ ?l ?r => change (@eq R l r) end.
(** A table that is differentiable at a point with the derivatives that it returns. *)
Definition smooth_at (T T1 T2 : R -> R -> R) (x y : R) : Prop := differentiable_pt_lim T x y (T1 x y) (T2 x y).
Lemma table_rate T T1 T2 (u v : R -> R) x du dv : smooth_at T T1 T2 (u x) (v x) -> is_derive u x du -> is_derive v x dv ->
  is_derive (fun t => T (u t) (v t)) x (T1 (u x) (v x) * du + T2 (u x) (v x) * dv).
Proof.
  intros S U V. apply is_derive_Reals. apply derivable_pt_lim_comp_2d; [exact S|now apply is_derive_Reals|now apply is_derive_Reals].
Qed.
Lemma clamp_rate (F : R -> R) x d : is_derive F x d -> F x <> 0 ->
  is_derive (fun t => if leb (F t) 0 then 0 else F t) x (if leb (F x) 0 then 0 else d).
Proof.
  intros D N. assert (C : continuous F x) by (apply (ex_derive_continuous (V := R_NormedModule)); now exists d).
  destruct (Rtotal_order (F x) 0) as [L|[L|L]]; [|contradiction|].
  - rewrite leb_intro by lra. apply (is_derive_near _ (fun _ => 0) _ _ (fun t => F t < 0)).
    + now apply locally_neg.
    + intros y Hy. now rewrite leb_intro by lra.
    + apply (is_derive_const (V := R_NormedModule)).
  - rewrite leb_intro_false by lra. apply (is_derive_near _ F _ _ (fun t => 0 < F t)).
    + now apply locally_pos.
    + intros y Hy. now rewrite leb_intro_false by lra.
    + exact D.
Qed.
Definition clamped (T : R -> R -> R) (x y : R) : R := if leb (T x y) 0 then 0 else T x y.
Lemma clamped_rate T T1 T2 (u v : R -> R) x du dv : smooth_at T T1 T2 (u x) (v x) -> T (u x) (v x) <> 0 -> is_derive u x du -> is_derive v x dv ->
  is_derive (fun t => if leb (T (u t) (v t)) 0 then 0 else T (u t) (v t)) x
    ((if leb (T (u x) (v x)) 0 then 0 else T1 (u x) (v x)) * du + (if leb (T (u x) (v x)) 0 then 0 else T2 (u x) (v x)) * dv).
Proof.
  intros S N U V. eapply is_derive_eq.
  - apply (clamp_rate (fun t => T (u t) (v t)) x); [apply (table_rate T T1 T2 u v x du dv S U V)|exact N].
  - cbv beta. match goal with |- @eq _ ?l ?r => change (@eq R l r) end; destruct (leb _ _); ring.
Qed.
Lemma smooth_sum x y : smooth_at (fun x y => x + y + 10) (fun _ _ => 1) (fun _ _ => 1) x y.
Proof.
  intro eps. exists eps. intros u v U V. replace (u + v + 10 - (x + y + 10) - (1 * (u - x) + 1 * (v - y))) with 0 by ring.
  rewrite Rabs_R0. apply Rmult_le_pos; [apply Rlt_le, cond_pos|]. eapply Rle_trans; [apply Rabs_pos|apply Rmax_l].
Qed.
Global Opaque smooth_at.
(** A function of three numbers that has a derivative along every differentiable path, with the given partial derivatives. *)
Definition smooth3 (F F1 F2 F3 : R -> R -> R -> R) (a b c : R) : Prop :=
  forall (u v w : R -> R) x du dv dw, u x = a -> v x = b -> w x = c -> is_derive u x du -> is_derive v x dv -> is_derive w x dw ->
    is_derive (fun t => F (u t) (v t) (w t)) x (F1 a b c * du + F2 a b c * dv + F3 a b c * dw).
Lemma clamp_lt (G : R -> R) x d : is_derive G x d -> G x <> 0 ->
  is_derive (fun t => if ltb (G t) 0 then 0 else G t) x (if ltb (G x) 0 then 0 else d).
Proof.
  intros D N. assert (C : continuous G x) by (apply (ex_derive_continuous (V := R_NormedModule)); now exists d).
  destruct (Rtotal_order (G x) 0) as [L|[L|L]]; [|contradiction|].
  - rewrite ltb_intro by lra. apply (is_derive_near _ (fun _ => 0) _ _ (fun t => G t < 0)).
    + now apply locally_neg.
    + intros y Hy. now rewrite ltb_intro by lra.
    + apply (is_derive_const (V := R_NormedModule)).
  - rewrite ltb_intro_false by lra. apply (is_derive_near _ G _ _ (fun t => 0 < G t)).
    + now apply locally_pos.
    + intros y Hy. now rewrite ltb_intro_false by lra.
    + exact D.
Qed.
Lemma drag_rate F F1 F2 F3 (u v w g h : R -> R) x du dv dw dg dh : smooth3 F F1 F2 F3 (u x) (v x) (w x) ->
  is_derive u x du -> is_derive v x dv -> is_derive w x dw -> is_derive g x dg -> is_derive h x dh -> h x <> 0 ->
  is_derive (fun t => F (u t) (v t) (w t) * g t * w t / h t) x
   ((F1 (u x) (v x) (w x) * du + F2 (u x) (v x) (w x) * dv + F3 (u x) (v x) (w x) * dw) * g x * w x / h x + F (u x) (v x) (w x) * (dg * w x + g x * dw) / h x
    - F (u x) (v x) (w x) * g x * w x * dh / h x ^ 2).
Proof.
  intros S U V W G H N. assert (D := S u v w x du dv dw eq_refl eq_refl eq_refl U V W).
  set (f := fun t => F (u t) (v t) (w t)) in *. set (d := F1 _ _ _ * _ + _ + _) in *. change (F (u x) (v x) (w x)) with (f x).
  change (is_derive (fun t => f t * g t * w t / h t) x (d * g x * w x / h x + f x * (dg * w x + g x * dw) / h x - f x * g x * w x * dh / h x ^ 2)).
  change (is_derive f x d) in D. clearbody f d. known D. known W. known G. known H. auto_derive; minus_div; [repeat split; assumption|]. put_derive D. put_derive W. put_derive G. put_derive H. plain. field. exact N.
Qed.
Lemma smooth3_sum a b c : smooth3 (fun x y z => x + y + z + 10) (fun _ _ _ => 1) (fun _ _ _ => 1) (fun _ _ _ => 1) a b c.
Proof.
  intros u v w x du dv dw _ _ _ U V W. known U. known V. known W. auto_derive; [tauto|]. put_derive U. put_derive V. put_derive W. plain. ring.
Qed.
Ltac table_prepare :=
  match goal with
  | op : options |- is_derive (fun t => out ?c (upd ?e _ t) _) _ _ =>
      match goal with D : context [e] |- _ =>
        revert D; let l := eval hnf in (c_ins c) in table e l; intro D; red_comp_in D
      end;
      red_comp; conjuncts
  end.
Ltac inner := lazymatch goal with |- is_derive (fun _ => ?c) _ _ => apply (is_derive_const (V := R_NormedModule))
   | |- is_derive (fun t => t) _ _ => apply (is_derive_id (K := R_AbsRing))
   | |- _ => auto_derive; [minus_div; derive_side | minus_div; reflexivity] end.
Lemma two_terms (a b c d : R -> R) x da db dc dd : is_derive a x da -> is_derive b x db -> is_derive c x dc -> is_derive d x dd ->
  is_derive (fun t => a t * b t + c t * d t) x (da * b x + a x * db + (dc * d x + c x * dd)).
Proof.
  intros A B C D. assert (EA : ex_derive a x) by (now exists da). assert (EB : ex_derive b x) by (now exists db).
  assert (EC : ex_derive c x) by (now exists dc). assert (ED : ex_derive d x) by (now exists dd).
  auto_derive; [tauto|]. put_derive A. put_derive B. put_derive C. put_derive D. match goal with |- @eq _ ?l ?r => change (@eq R l r) end. ring.
Qed.
Lemma two_factors (a b : R -> R) x da db : is_derive a x da -> is_derive b x db -> is_derive (fun t => a t * b t) x (da * b x + a x * db).
Proof.
  intros A B. assert (EA : ex_derive a x) by (now exists da). assert (EB : ex_derive b x) by (now exists db).
  auto_derive; [tauto|]. put_derive A. put_derive B. match goal with |- @eq _ ?l ?r => change (@eq R l r) end. ring.
Qed.
Ltac decide_pos := repeat match goal with |- context [ltb 0 ?a] => rewrite (ltb_intro 0 a) by lra end.
