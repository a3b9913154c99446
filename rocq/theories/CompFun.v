(** Further functions of one number for components: decimal logarithm, the sigmoid and the smooth maximum of
    /repo/aviary/utils/math.py (the versions for arrays of one element), and the Kreisselmeier-Steinhauser
    function of OpenMDAO for one element. *)
From Coq Require Import Reals Lra Lia.
From Coquelicot Require Import Coquelicot.
From Verif Require Import Base Calc MathModel MathProofs Comp CompMore.
Local Open Scope R_scope.

(** Comparison of an enumeration option with a member. *)
Definition enum_is (a b : string) : bool := String.eqb a b.

(** np.log10 *)
Definition log10 (x : R) : R := ln x / ln 10.
Lemma ln10_pos : 0 < ln 10.
Proof. rewrite <- ln_1. apply ln_increasing; lra. Qed.
Lemma log10_derive x : 0 < x -> is_derive log10 x (/ (x * ln 10)).
Proof. intro H. unfold log10. auto_derive; [exact H|]. field. pose proof ln10_pos. split; lra. Qed.
Global Instance UnaryDiff_log10 : UnaryDiff' log10.
Proof. exists (fun x => / (x * ln 10)) (fun x => 0 < x). intros x Hx. now apply log10_derive. Defined.

(** sigmoidX and dSigmoidXdx on an array of one element. *)
Definition sigf (x0 mu x : R) : R := sigmoid_elem x x0 mu.
Definition dsigf (x0 mu x : R) : R := dsigmoid_elem x x0 mu.
Notation sigmoidX1 x x0 mu := (sigf x0 mu x).
Notation dSigmoidX1 x x0 mu := (dsigf x0 mu x).
Global Instance UnaryDiff_sigf (x0 mu : R) : UnaryDiff' (sigf x0 mu).
Proof.
  exists (dsigf x0 mu) (fun x => mu <> 0 /\ (x - x0) / mu <> -320). intros x [A B]. now apply sigmoid_derive.
Defined.

(** The scaled distance from the centre is in the range without cut-off. *)
Definition in_range (x x0 mu : R) : Prop := -320 < (x - x0) / mu < 320.
Lemma in_range_opp x x0 mu : mu <> 0 -> in_range x x0 mu -> in_range x x0 (- mu).
Proof. unfold in_range. intros M H. replace ((x - x0) / - mu) with (- ((x - x0) / mu)) by (field; lra). lra. Qed.

Lemma sigf_value x x0 mu : mu <> 0 -> in_range x x0 mu -> sigf x0 mu x = / (1 + exp (- ((x - x0) / mu))).
Proof.
  intros M [H _]. unfold sigf, sigmoid_elem. destruct (Rlt_dec _ _) as [L|L]; [|lra].
  replace (- (x - x0) / mu) with (- ((x - x0) / mu)) by (field; exact M). field.
  pose proof (exp_pos (- ((x - x0) / mu))). lra.
Qed.
Lemma dsigf_value x x0 mu : mu <> 0 -> in_range x x0 mu ->
  dsigf x0 mu x = sigf x0 mu x * (1 - sigf x0 mu x) / mu.
Proof.
  intros M H. rewrite sigf_value by assumption. destruct H as [H _].
  unfold dsigf, dsigmoid_elem. destruct (Rlt_dec _ _) as [L|L]; [|lra].
  replace (- (x - x0) / mu) with (- ((x - x0) / mu)) by (field; exact M). cbv zeta.
  pose proof (exp_pos (- ((x - x0) / mu))). field. lra.
Qed.
Lemma sigf_opp x x0 mu : mu <> 0 -> in_range x x0 mu -> sigf x0 (- mu) x = 1 - sigf x0 mu x.
Proof.
  intros M H. rewrite !sigf_value by (try apply in_range_opp; assumption || lra).
  replace (- ((x - x0) / - mu)) with ((x - x0) / mu) by (field; lra). rewrite exp_Ropp.
  pose proof (exp_pos ((x - x0) / mu)). field. lra.
Qed.
Lemma dsigf_opp x x0 mu : mu <> 0 -> in_range x x0 mu -> dsigf x0 (- mu) x = - dsigf x0 mu x.
Proof.
  intros M H. rewrite !dsigf_value by (try apply in_range_opp; assumption || lra).
  rewrite sigf_opp by assumption. field. exact M.
Qed.
Lemma sigf_pos x x0 mu : mu <> 0 -> in_range x x0 mu -> 0 < sigf x0 mu x.
Proof. intros M H. rewrite sigf_value by assumption. apply Rinv_0_lt_compat. pose proof (exp_pos (- ((x - x0) / mu))). lra. Qed.
Lemma sigf_lt_1 x x0 mu : mu <> 0 -> in_range x x0 mu -> sigf x0 mu x < 1.
Proof. intros M H. pose proof (sigf_pos x x0 (- mu) ltac:(lra) (in_range_opp _ _ _ M H)) as P. rewrite sigf_opp in P by assumption. lra. Qed.
Lemma dsigf_pos x x0 mu : 0 < mu -> in_range x x0 mu -> 0 < dsigf x0 mu x.
Proof.
  intros M H. assert (N : mu <> 0) by lra. rewrite dsigf_value by assumption.
  pose proof (sigf_pos _ _ _ N H). pose proof (sigf_lt_1 _ _ _ N H).
  apply Rmult_lt_0_compat; [|now apply Rinv_0_lt_compat]. apply Rmult_lt_0_compat; lra.
Qed.
Lemma sigf_low x x0 mu : (x - x0) / mu <= -320 -> sigf x0 mu x = 0.
Proof. intros H. unfold sigf, sigmoid_elem. destruct (Rlt_dec _ _) as [L|L]; [lra|reflexivity]. Qed.
Lemma dsigf_reflect x y x0 y0 mu : mu <> 0 -> x - x0 = - (y - y0) -> in_range x x0 mu -> dsigf x0 mu x = dsigf y0 mu y.
Proof.
  intros M E H. assert (H' : in_range y y0 mu).
  { unfold in_range in *. replace ((y - y0) / mu) with (- ((x - x0) / mu)) by (rewrite E; field; exact M). lra. }
  rewrite !dsigf_value, !sigf_value by assumption. rewrite E.
  replace (- (- (y - y0) / mu)) with ((y - y0) / mu) by (field; exact M). rewrite exp_Ropp.
  pose proof (exp_pos ((y - y0) / mu)). field. lra.
Qed.

(** smooth_max and d_smooth_max *)
Definition smaxf (b mu x : R) : R := smooth_max x b mu.
Definition dsmaxf (b mu x : R) : R := d_smooth_max x b mu.
Notation smooth_max1 x b mu := (smaxf b mu x).
Notation d_smooth_max1 x b mu := (dsmaxf b mu x).
Global Instance UnaryDiff_smaxf (b mu : R) : UnaryDiff' (smaxf b mu).
Proof. exists (dsmaxf b mu) (fun _ => mu <> 0). intros x A. now apply smooth_max_derive. Defined.

(** KSfunction.compute(g, rho) and KSfunction.derivatives(g, rho) of OpenMDAO (openmdao/components/ks_comp.py,
    outside /repo) for an array g of one element: max(g) + ln (sum (exp (rho (g - max(g))))) / rho, which is the
    element, and its derivatives with respect to g and rho. *)
Definition ks1 (g rho : R) : R := g.
Definition dks1 (g rho : R) : R * R := (1, 0).

(** Positions of sigmoids relative to the cut-off. *)
Lemma range_gt x x0 mu : in_range x x0 mu -> (x - x0) / mu <> -320.
Proof. unfold in_range. lra. Qed.
Lemma range_opp_gt x x0 mu : mu <> 0 -> in_range x x0 mu -> (x - x0) / - mu <> -320.
Proof. intros M H. apply range_gt. now apply in_range_opp. Qed.

Lemma smaxf_ge x b mu : 0 < mu -> x <= smaxf b mu x.
Proof. intro M. unfold smaxf. pose proof (smooth_max_bounds x b mu M). pose proof (Rmax_l x b). lra. Qed.
Global Opaque sigf dsigf smaxf dsmaxf log10.

Ltac red_comp ::=
  lazy - [Rplus Rmult Rminus Ropp Rdiv Rinv IZR INR pw exp ln sqrt sin cos tan atan asin acos PI pow Rabs is_derive ltb leb
         eqb on ob oe Rmax Rmin floorR modR not sin_int4 dydx_sin_int4 Rlt Rle sigf dsigf smaxf dsmaxf log10 in_range enum_is].
Ltac red_comp_in H ::=
  lazy - [Rplus Rmult Rminus Ropp Rdiv Rinv IZR INR pw exp ln sqrt sin cos tan atan asin acos PI pow Rabs is_derive ltb leb
         eqb on ob oe Rmax Rmin floorR modR not sin_int4 dydx_sin_int4 Rlt Rle sigf dsigf smaxf dsmaxf log10 in_range enum_is] in H.
Ltac declared_tac ::=
  apply only_declared_check; intro;
  lazy - [Rplus Rmult Rminus Ropp Rdiv Rinv IZR INR pw exp ln sqrt sin cos tan atan asin acos PI pow Rabs ltb leb eqb
          on ob oe Rmax Rmin floorR modR sin_int4 dydx_sin_int4 sigf dsigf smaxf dsmaxf log10 enum_is];
  branches; reflexivity.

(** Applications of the functions above to equal numbers are equal. *)
Ltac same_three f :=
  repeat match goal with
  | |- context [f ?a ?m ?x] =>
      match goal with
      | |- context [f ?b ?n ?y] =>
          first [constr_eq a b; constr_eq m n; constr_eq x y; fail 1
                | replace (f b n y) with (f a m x) by (f_equal; solve [reflexivity | lra | field; repeat split; nonzero]) ]
      end
  end.
Ltac fun_norm ::=
  same_arg exp; same_arg cos; same_arg sin; same_arg tan; same_arg ln; same_arg log10;
  same_three sigf; same_three dsigf; same_three smaxf; same_three dsmaxf.

(** Domains that depend on an option: (option = true -> A) /\ (option = false -> B). *)
Ltac cases_of :=
  repeat match goal with
  | H : ?b = ?v, K : ?b = ?v -> _ |- _ => specialize (K H)
  | H : ?b = true, K : ?b = false -> _ |- _ => clear K
  | H : ?b = false, K : ?b = true -> _ |- _ => clear K
  | H : _ /\ _ |- _ => destruct H
  | H : ?b = true, K : ?b = false |- _ => rewrite H in K; discriminate K
  end.
Ltac facts ::= cases_of; rewrite ?cos_0, ?sin_0.

(** Away from the cut-off of a sigmoid. *)
Ltac off_cut :=
  match goal with
  | H : ?y <> -320 |- ?x <> -320 => replace x with y by (field; repeat split; nonzero); exact H
  end.
Ltac derive_side ::= repeat split; try assumption; try solve [nonzero | pos | off_cut].

(** Case analysis that drops impossible cases at once. *)
Ltac read H :=
  first [apply ltb_true in H | apply ltb_false in H | apply leb_true in H | apply leb_false in H
        | apply eqb_true in H | apply eqb_false in H | idtac].
Ltac branches ::=
  repeat match goal with
  | |- context [if ?c then _ else _] =>
      lazymatch c with
      | context [if _ then _ else _] => fail
      | _ => let E := fresh "E" in destruct c eqn:E; read E; try (exfalso; lra)
      end
  end.

Ltac decide_by_lra :=
  repeat match goal with
  | |- context [ltb ?a ?b] => first [rewrite (ltb_intro a b) by lra | rewrite (ltb_intro_false a b) by lra]
  | |- context [leb ?a ?b] => first [rewrite (leb_intro a b) by lra | rewrite (leb_intro_false a b) by lra]
  | |- context [Rmax ?a ?b] => first [rewrite (Rmax_left a b) by lra | rewrite (Rmax_right a b) by lra]
  | |- context [Rmin ?a ?b] => first [rewrite (Rmin_left a b) by lra | rewrite (Rmin_right a b) by lra]
  end.
Ltac threshold f ::=
  constr:(fun t : R => ltac:(let b := eval cbv beta in (f t) in
    match b with
    | context [ltb ?a ?c] => exact (a - c)
    | context [leb ?a ?c] => exact (a - c)
    | context [Rmax ?a ?c] => exact (a - c)
    | context [Rmin ?a ?c] => exact (a - c)
    end)).
Ltac settle_on Q ::=
  eapply (is_derive_near _ _ _ _ Q);
  [ | let y := fresh "y" in let Hy := fresh "Hy" in intros y Hy; cbv beta in Hy; decide_by_lra; reflexivity | ].
