(** Small calculus toolkit on top of Coquelicot, shared by the component developments. *)
From Coq Require Import Reals Lra Lia.
From Coquelicot Require Import Coquelicot.
Local Open Scope R_scope.

(** Derivative of a function that agrees with another one near the point. *)
Lemma is_derive_near (f g : R -> R) x l (P : R -> Prop) :
  locally x P -> (forall y, P y -> f y = g y) -> is_derive g x l -> is_derive f x l.
Proof.
  intros L E D. apply (is_derive_ext_loc g f); [|exact D].
  apply (filter_imp P); [|exact L]. intros y Hy. symmetry. now apply E.
Qed.

Lemma locally_gt (x a : R) : a < x -> locally x (fun y => a < y).
Proof. intro H. apply (open_gt a x H). Qed.
Lemma locally_lt (x a : R) : x < a -> locally x (fun y => y < a).
Proof. intro H. apply (open_lt a x H). Qed.

(** An open condition on a continuous quantity holds nearby. *)
Lemma locally_cont_gt (f : R -> R) x a : continuous f x -> a < f x -> locally x (fun y => a < f y).
Proof. intros C H. apply (C (fun z => a < z)). now apply (open_gt a (f x)). Qed.
Lemma locally_cont_lt (f : R -> R) x a : continuous f x -> f x < a -> locally x (fun y => f y < a).
Proof. intros C H. apply (C (fun z => z < a)). now apply (open_lt a (f x)). Qed.

Lemma exp_pos' x : 0 < exp x. Proof. apply exp_pos. Qed.
Lemma one_plus_exp x : 0 < 1 + exp x. Proof. pose proof (exp_pos x). lra. Qed.

(** Monotone functions from the sign of the derivative. *)
Lemma nondecreasing_of_derive (f df : R -> R) :
  (forall x, is_derive f x (df x)) -> (forall x, 0 <= df x) -> forall a b, a <= b -> f a <= f b.
Proof.
  intros D P a b H. destruct (Rle_lt_or_eq_dec a b H) as [L|E]; [|subst; lra].
  destruct (MVT_gen f a b df) as (c & Hc & E).
  - intros x _. apply D.
  - intros x _. apply continuity_pt_filterlim. apply (ex_derive_continuous f x). eexists. apply D.
  - specialize (P c). nra.
Qed.
