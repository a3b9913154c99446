(** Scalar OpenMDAO components: inputs and outputs by name, declared and computed partial derivatives.

    An explicit component is modelled by its input names, its output names, the pairs that
    declare_partials allows (with the constant value given there, or 0), [compute] and
    [compute_partials].  OpenMDAO takes a declared pair that compute_partials does not assign from the
    declaration, and a pair that is not declared as zero; assigning a pair that was not declared raises
    KeyError. *)
From Coq Require Import Reals Lra Lia.
From Coquelicot Require Import Coquelicot.
From Verif Require Import Base Calc MathModel MathProofs.
Local Open Scope R_scope.

Definition env := string -> R.
Definition upd (e : env) (i : string) (t : R) : env := fun x => if String.eqb x i then t else e x.

(** Options of a component: numbers, flags and enumeration members (by name). *)
Record options : Type := { on : string -> R; ob : string -> bool; oe : string -> string }.

Record comp : Type := {
  c_ins : list string;
  c_outs : list string;
  c_decl : list (string * string * R);
  c_run : env -> list (string * R);
  c_jac : env -> list (string * string * R) }.

Fixpoint pget (o i : string) (l : list (string * string * R)) : option R :=
  match l with
  | [] => None
  | (o', i', v) :: l' => if (String.eqb o o' && String.eqb i i')%bool then Some v else pget o i l'
  end.

Definition out (c : comp) (e : env) (o : string) : R := match dget o (c_run c e) with Some v => v | None => 0 end.

(** The partial derivative that OpenMDAO uses. *)
Definition jac (c : comp) (e : env) (o i : string) : R :=
  match pget o i (c_decl c) with
  | None => 0
  | Some v0 => match pget o i (c_jac c e) with Some v => v | None => v0 end
  end.

(** compute_partials assigns no undeclared pair. *)
Definition only_declared (c : comp) : Prop :=
  forall e o i v, In (o, i, v) (c_jac c e) -> pget o i (c_decl c) <> None.

(** Every partial derivative used by OpenMDAO is the derivative of the output that compute assigns. *)
Definition exact_at (c : comp) (e : env) (o i : string) : Prop :=
  is_derive (fun t => out c (upd e i t) o) (e i) (jac c e o i).

(** The named numbers are positive. *)
Fixpoint positive (l : list string) (e : env) : Prop :=
  match l with [] => True | [x] => 0 < e x | x :: l' => 0 < e x /\ positive l' e end.

Definition everywhere (e : env) : Prop := True.

Definition exact_partials (c : comp) (dom : env -> Prop) : Prop :=
  (forall o, In o (c_outs c) -> forall e, dom e -> dget o (c_run c e) <> None) /\
  only_declared c /\
  forall e, dom e -> forall o i, In o (c_outs c) -> In i (c_ins c) -> exact_at c e o i.

(** The same with some pairs left out. *)
Definition exact_except (c : comp) (dom : env -> Prop) (bad : list (string * string)) : Prop :=
  (forall o, In o (c_outs c) -> forall e, dom e -> dget o (c_run c e) <> None) /\
  only_declared c /\
  forall e, dom e -> forall o i, In o (c_outs c) -> In i (c_ins c) -> ~ In (o, i) bad -> exact_at c e o i.

(** The partial derivative is right up to a relative error. *)
Definition exact_within (c : comp) (e : env) (o i : string) (eps : R) : Prop :=
  exists d, is_derive (fun t => out c (upd e i t) o) (e i) d /\ Rabs (jac c e o i - d) <= eps * Rabs d.

(** The output is proportional to the input. *)
Definition proportional (c : comp) (o i : string) : Prop :=
  forall e t, out c (upd e i t) o = t * out c (upd e i 1) o.

Lemma only_declared_check c :
  (forall e, forallb (fun '(o, i, _) => match pget o i (c_decl c) with Some _ => true | None => false end) (c_jac c e) = true) ->
  only_declared c.
Proof.
  intros H e o i v Hin. specialize (H e). rewrite forallb_forall in H. specialize (H _ Hin). cbn in H.
  destruct (pget o i (c_decl c)); [discriminate|discriminate H].
Qed.

Lemma is_derive_eq (f : R -> R) x l l' : is_derive f x l -> l = l' -> is_derive f x l'.
Proof. intros H <-. exact H. Qed.

(** An environment may be given by the values of some names. *)
Lemma upd_id e n : upd e n (e n) = e.
Proof.
  apply FunctionalExtensionality.functional_extensionality. intro x. unfold upd.
  destruct (String.eqb_spec x n) as [->|]; reflexivity.
Qed.
Lemma by_value (P : env -> Prop) n : (forall r e, P (upd e n r)) -> forall e, P e.
Proof. intros H e. rewrite <- (upd_id e n). apply H. Qed.

(** ** Constants, /repo/aviary/constants.py L41-47 *)
Definition GRAV_ENGLISH_LBM : R := 1.
Definition PSLS_PSF : R := 211622 / 100.
Definition TSLS_DEGR : R := 51867 / 100.

(** Remainder of Python; the floor is [MathModel.floorR]. *)
Definition modR (x y : R) : R := x - y * floorR (x / y).

Global Opaque modR.

(** ** Powers *)
(** [x ** a] of Python for x >= 0; negative bases with fractional exponents are outside the model. *)
Definition pw (a x : R) : R :=
  if Req_EM_T x 0 then (if Req_EM_T a 0 then 1 else 0) else Rpower x a.
Notation "x ** a" := (pw a x) (at level 30, right associativity) : R_scope.

Definition ltb (a b : R) : bool := if Rlt_dec a b then true else false.
Definition leb (a b : R) : bool := if Rle_dec a b then true else false.
Definition eqb (a b : R) : bool := if Req_EM_T a b then true else false.

Lemma pw_Rpower a x : 0 < x -> pw a x = Rpower x a.
Proof. intro H. unfold pw. destruct (Req_EM_T x 0); [lra|reflexivity]. Qed.

Lemma pw_pos a x : 0 < x -> 0 < pw a x.
Proof. intro H. rewrite pw_Rpower by exact H. apply exp_pos. Qed.

Lemma pw_derive a x : 0 < x -> is_derive (pw a) x (a * pw (a - 1) x).
Proof.
  intro H. apply (is_derive_near (pw a) (fun t => exp (a * ln t)) x _ (fun t => 0 < t)).
  - now apply locally_gt.
  - intros y Hy. rewrite pw_Rpower by exact Hy. reflexivity.
  - auto_derive; [exact H|]. rewrite pw_Rpower by exact H. unfold Rpower.
    replace ((a - 1) * ln x) with (a * ln x + - ln x) by ring. rewrite exp_plus, exp_Ropp, exp_ln by exact H.
    field. lra.
Qed.

Global Instance UnaryDiff_pw (a : R) : UnaryDiff' (pw a).
Proof. exists (fun x => a * pw (a - 1) x) (fun x => 0 < x). intros x Hx. now apply pw_derive. Defined.

Lemma tan_derive x : cos x <> 0 -> is_derive tan x (1 + tan x ^ 2).
Proof.
  intro H. unfold tan. auto_derive; [exact H|]. generalize (sin2_cos2 x). unfold Rsqr. intro S.
  field_simplify_eq; [|exact H]. nra.
Qed.
Global Instance UnaryDiff_tan : UnaryDiff' tan.
Proof. exists (fun x => 1 + tan x ^ 2) (fun x => cos x <> 0). intros x Hx. now apply tan_derive. Defined.

Global Instance UnaryDiff_sin_int4 : UnaryDiff sin_int4.
Proof. exists dydx_sin_int4. intro x. apply sin_int4_derive. Defined.

Lemma pw_mult a x y : 0 < x -> 0 < y -> pw a (x * y) = pw a x * pw a y.
Proof.
  intros X Y. rewrite !pw_Rpower by (try apply Rmult_lt_0_compat; assumption). symmetry. now apply Rpower_mult_distr.
Qed.
Lemma pw_inv a x : 0 < x -> pw a (/ x) = / pw a x.
Proof.
  intro X. assert (0 < / x) by now apply Rinv_0_lt_compat. rewrite !pw_Rpower by assumption. unfold Rpower.
  rewrite ln_Rinv by exact X. rewrite <- exp_Ropp. f_equal. ring.
Qed.
Lemma pw_div a x y : 0 < x -> 0 < y -> pw a (x / y) = pw a x / pw a y.
Proof. intros X Y. unfold Rdiv. rewrite pw_mult, pw_inv by (try apply Rinv_0_lt_compat; assumption). reflexivity. Qed.
Lemma pw_plus a b x : 0 < x -> pw (a + b) x = pw a x * pw b x.
Proof. intro X. rewrite !pw_Rpower by exact X. apply Rpower_plus. Qed.
Lemma pw_pw a b x : 0 < x -> pw a (pw b x) = pw (b * a) x.
Proof. intro X. rewrite (pw_Rpower a) by now apply pw_pos. rewrite !pw_Rpower by exact X. apply Rpower_mult. Qed.
Lemma pw_nat n x : 0 < x -> pw (INR n) x = x ^ n.
Proof. intro X. rewrite pw_Rpower by exact X. now apply Rpower_pow. Qed.
Lemma pw_pow n a x : 0 < x -> pw a (x ^ n) = pw (INR n * a) x.
Proof. intro X. rewrite <- (pw_nat n x X). now apply pw_pw. Qed.
Lemma pow_pw n a x : 0 < x -> pw a x ^ n = pw (a * INR n) x.
Proof. intro X. rewrite <- (pw_nat n). 2: now apply pw_pos. now apply pw_pw. Qed.
Lemma sqrt_pw x : 0 < x -> sqrt x = pw (1 / 2) x.
Proof. intro X. rewrite pw_Rpower by exact X. replace (1 / 2) with (/ 2) by field. symmetry. now apply Rpower_sqrt. Qed.
Lemma pw_shift a b k x : 0 < x -> a = b + INR k -> pw a x = pw b x * x ^ k.
Proof. intros X ->. rewrite pw_plus, pw_nat by exact X. reflexivity. Qed.
Lemma pw_shift_down a b k x : 0 < x -> a = b - INR k -> pw a x = pw b x / x ^ k.
Proof.
  intros X E. assert (B : pw b x = pw a x * x ^ k) by (apply pw_shift; [exact X|lra]). rewrite B. field.
  apply pow_nonzero. lra.
Qed.
Lemma pw_double a b x : 0 < x -> a = 2 * b -> pw a x = pw b x ^ 2.
Proof. intros X ->. rewrite pow_pw by exact X. f_equal. cbn. ring. Qed.
Lemma pw_1 a : pw a 1 = 1.
Proof. rewrite pw_Rpower by lra. unfold Rpower. rewrite ln_1, Rmult_0_r. apply exp_0. Qed.
Lemma pw_id a x : 0 < x -> a = 1 -> pw a x = x.
Proof. intros X ->. rewrite pw_Rpower by exact X. now apply Rpower_1. Qed.
Lemma pw_zero a x : 0 < x -> a = 0 -> pw a x = 1.
Proof. intros X ->. rewrite pw_Rpower by exact X. now apply Rpower_O. Qed.
Lemma pw_flip a b k x : 0 < x -> a = INR k - b -> pw a x = x ^ k / pw b x.
Proof.
  intros X ->. assert (B : x ^ k = pw (INR k - b) x * pw b x).
  { rewrite <- pw_plus by exact X. rewrite <- (pw_nat k x X). f_equal. ring. }
  rewrite B. field. apply Rgt_not_eq, pw_pos, X.
Qed.
Lemma pw_flip_down a b k x : 0 < x -> a = - INR k - b -> pw a x = / (x ^ k * pw b x).
Proof.
  intros X ->. assert (B : 1 = pw (- INR k - b) x * pw b x * x ^ k).
  { rewrite <- pw_plus by exact X. rewrite <- (pw_nat k x X), <- pw_plus by exact X.
    replace (- INR k - b + b + INR k) with 0 by ring. symmetry. now apply pw_zero. }
  assert (pw b x <> 0) by now apply Rgt_not_eq, pw_pos. assert (x ^ k <> 0) by (apply pow_nonzero; lra).
  apply (Rmult_eq_reg_r (x ^ k * pw b x)); [|now apply Rmult_integral_contrapositive_currified].
  rewrite Rinv_l by now apply Rmult_integral_contrapositive_currified.
  transitivity (pw (- INR k - b) x * pw b x * x ^ k); [ring|now symmetry].
Qed.
Lemma pw_0 x : pw 0 x = 1 \/ x < 0.
Proof.
  unfold pw. destruct (Req_EM_T x 0) as [->|N]; [destruct (Req_EM_T 0 0); [now left|congruence]|].
  destruct (Rlt_dec x 0); [now right|]. left. apply Rpower_O. lra.
Qed.

Lemma one_plus_sq x : 0 < 1 + x ^ 2.
Proof. nra. Qed.

Lemma pow_lt_compat x y n : 0 <= x < y -> x ^ S n < y ^ S n.
Proof.
  intros [X Y]. induction n as [|n IH]; [lra|]. change (x * x ^ S n < y * y ^ S n).
  assert (0 <= x ^ S n) by (apply pow_le; lra). nra.
Qed.
(** Comparison of a rational power with a number, by integer powers. *)
Lemma pw_above m n a x y : a = INR m / INR (S n) -> 0 < x -> 0 < y -> y ^ S n <= x ^ m -> y <= pw a x.
Proof.
  intros A X Y H. assert (NN : INR (S n) <> 0) by (apply not_0_INR; lia). subst a.
  destruct (Rle_dec y (pw (INR m / INR (S n)) x)) as [L|L]; [exact L|]. exfalso.
  assert (P : pw (INR m / INR (S n)) x ^ S n < y ^ S n).
  { apply pow_lt_compat. split; [left; apply pw_pos, X|lra]. }
  rewrite pow_pw in P by exact X. replace (INR m / INR (S n) * INR (S n)) with (INR m) in P by (field; exact NN).
  rewrite pw_nat in P by exact X. lra.
Qed.
Lemma pw_below m n a x y : a = INR m / INR (S n) -> 0 < x -> 0 < y -> x ^ m <= y ^ S n -> pw a x <= y.
Proof.
  intros A X Y H. assert (NN : INR (S n) <> 0) by (apply not_0_INR; lia). subst a.
  destruct (Rle_dec (pw (INR m / INR (S n)) x) y) as [L|L]; [exact L|]. exfalso.
  assert (P : y ^ S n < pw (INR m / INR (S n)) x ^ S n).
  { apply pow_lt_compat. lra. }
  rewrite pow_pw in P by exact X. replace (INR m / INR (S n) * INR (S n)) with (INR m) in P by (field; exact NN).
  rewrite pw_nat in P by exact X. lra.
Qed.

Lemma cos_deg_pos s : -90 < s < 90 -> 0 < cos (PI / 180 * s).
Proof. intro H. pose proof PI_RGT_0 as P. apply cos_gt_0; nra. Qed.

(** The truth value of a comparison. *)
Lemma ltb_true a b : ltb a b = true -> a < b.
Proof. unfold ltb. destruct (Rlt_dec a b); [trivial|discriminate]. Qed.
Lemma ltb_false a b : ltb a b = false -> b <= a.
Proof. unfold ltb. destruct (Rlt_dec a b); [discriminate|]. intros _. lra. Qed.
Lemma leb_true a b : leb a b = true -> a <= b.
Proof. unfold leb. destruct (Rle_dec a b); [trivial|discriminate]. Qed.
Lemma leb_false a b : leb a b = false -> b < a.
Proof. unfold leb. destruct (Rle_dec a b); [discriminate|]. intros _. lra. Qed.
Lemma eqb_true a b : eqb a b = true -> a = b.
Proof. unfold eqb. destruct (Req_EM_T a b); [trivial|discriminate]. Qed.
Lemma eqb_false a b : eqb a b = false -> a <> b.
Proof. unfold eqb. destruct (Req_EM_T a b); [discriminate|trivial]. Qed.
Lemma ltb_intro a b : a < b -> ltb a b = true.
Proof. unfold ltb. destruct (Rlt_dec a b); [trivial|lra]. Qed.
Lemma ltb_intro_false a b : b <= a -> ltb a b = false.
Proof. unfold ltb. destruct (Rlt_dec a b); [lra|trivial]. Qed.
Lemma leb_intro a b : a <= b -> leb a b = true.
Proof. unfold leb. destruct (Rle_dec a b); [trivial|lra]. Qed.
Lemma leb_intro_false a b : b < a -> leb a b = false.
Proof. unfold leb. destruct (Rle_dec a b); [lra|trivial]. Qed.
Lemma eqb_refl a : eqb a a = true.
Proof. unfold eqb. destruct (Req_EM_T a a); [trivial|congruence]. Qed.
Lemma eqb_intro_false a b : a <> b -> eqb a b = false.
Proof. unfold eqb. destruct (Req_EM_T a b); [congruence|trivial]. Qed.

(** ** Automation *)
Ltac pos :=
  match goal with
  | H : ?P |- ?P => exact H
  | |- 0 < _ * _ => first [lra | apply Rmult_lt_0_compat; pos]
  | |- 0 < _ / _ => apply Rdiv_lt_0_compat; pos
  | |- 0 < / _ => apply Rinv_0_lt_compat; pos
  | |- 0 < _ ^ _ => apply pow_lt; pos
  | |- 0 < pw _ _ => apply pw_pos; pos
  | |- 0 < exp _ => apply exp_pos
  | |- 0 < PI => exact PI_RGT_0
  | |- 0 < sqrt _ => apply sqrt_lt_R0; pos
  | |- 0 < 1 + _ ^ 2 => apply one_plus_sq
  | |- 0 < _ + _ => first [lra | apply Rplus_lt_0_compat; pos]
  | |- _ => lra
  end.

Ltac nonzero :=
  match goal with
  | H : ?P |- ?P => exact H
  | |- _ * _ <> 0 => apply Rmult_integral_contrapositive_currified; nonzero
  | |- _ / _ <> 0 => apply Rmult_integral_contrapositive_currified; [nonzero|apply Rinv_neq_0_compat; nonzero]
  | |- / _ <> 0 => apply Rinv_neq_0_compat; nonzero
  | |- _ ^ _ <> 0 => apply pow_nonzero; nonzero
  | |- - _ <> 0 => apply Ropp_neq_0_compat; nonzero
  | H : cos ?b <> 0 |- cos ?a <> 0 => replace a with b by field; exact H
  | |- _ => first [lra | solve [apply Rgt_not_eq; red; pos]]
  end.

Ltac inr := cbn [INR]; lra.

(** Differences and quotients in place of sums with opposites and products with inverses. *)
Ltac minus_div :=
  repeat match goal with
  | |- context [?a + - ?b] => change (a + - b) with (a - b)
  | |- context [?a * / ?b] => change (a * / b) with (a / b)
  end.

(** Bring all powers of one base to one exponent modulo integers. *)
Ltac pw_products :=
  repeat match goal with
  | |- context [sqrt ?x] => rewrite (sqrt_pw x) by pos
  | |- context [pw ?a 1] => rewrite (pw_1 a)
  | |- context [pw ?a (?x * ?y)] => rewrite (pw_mult a x y) by pos
  | |- context [pw ?a (?x / ?y)] => rewrite (pw_div a x y) by pos
  | |- context [pw ?a (/ ?x)] => rewrite (pw_inv a x) by pos
  | |- context [pw ?a (pw ?b ?x)] => rewrite (pw_pw a b x) by pos
  | |- context [pw ?a (?x ^ ?n)] => rewrite (pw_pow n a x) by pos
  end.

Ltac pw_exponents :=
  repeat match goal with
  | |- context [pw ?a ?x] => rewrite (pw_id a x) by (solve [pos | lra])
  | |- context [pw ?a ?x] => rewrite (pw_zero a x) by (solve [pos | lra])
  end;
  repeat match goal with
  | |- context [pw ?a ?x] =>
      match goal with
      | |- context [pw ?b x] =>
          first [constr_eq a b; fail 1
                | rewrite (pw_shift a b 0 x) by (solve [pos | inr])
                | rewrite (pw_shift a b 1 x) by (solve [pos | inr])
                | rewrite (pw_shift a b 2 x) by (solve [pos | inr])
                | rewrite (pw_shift a b 3 x) by (solve [pos | inr])
                | rewrite (pw_flip a b 0 x) by (solve [pos | inr])
                | rewrite (pw_flip a b 1 x) by (solve [pos | inr])
                | rewrite (pw_flip a b 2 x) by (solve [pos | inr])
                | rewrite (pw_flip_down a b 1 x) by (solve [pos | inr])
                | rewrite (pw_flip_down a b 2 x) by (solve [pos | inr])
                | rewrite (pw_flip_down a b 3 x) by (solve [pos | inr])
                | rewrite (pw_double a b x) by (solve [pos | lra])
                | rewrite (pw_double a (b + 1) x) by (solve [pos | lra])
                | rewrite (pw_double a (b + -1) x) by (solve [pos | lra]) ]
      end
  end.
Ltac pw_norm := pw_products; pw_exponents.

(** One argument for applications of exp, ln, sin, cos and tan to equal arguments. *)
Ltac same_arg f :=
  repeat match goal with
  | |- context [f ?a] =>
      match goal with
      | |- context [f ?b] => first [constr_eq a b; fail 1 | replace (f b) with (f a) by (f_equal; field; repeat split; nonzero)]
      end
  end.
Ltac fun_norm := same_arg exp; same_arg cos; same_arg sin; same_arg tan; same_arg ln.

Ltac pw_field := try reflexivity; minus_div; unfold tan; pw_norm; fun_norm; field; repeat split; nonzero.

(** Split the memberships of concrete lists. *)
Ltac split_in H :=
  simpl in H; repeat match type of H with _ \/ _ => destruct H as [H|H] end; try contradiction.

Ltac red_comp :=
  lazy - [Rplus Rmult Rminus Ropp Rdiv Rinv IZR INR pw exp ln sqrt sin cos tan atan PI pow Rabs is_derive ltb leb eqb
         on ob oe Rmax Rmin floorR modR not sin_int4 dydx_sin_int4 Rlt Rle].
Ltac red_comp_in H :=
  lazy - [Rplus Rmult Rminus Ropp Rdiv Rinv IZR INR pw exp ln sqrt sin cos tan atan PI pow Rabs is_derive ltb leb eqb
         on ob oe Rmax Rmin floorR modR not sin_int4 dydx_sin_int4 Rlt Rle] in H.

(** Read the comparisons that were decided, and close impossible branches. *)
Ltac decided :=
  repeat match goal with
  | H : ltb _ _ = true |- _ => apply ltb_true in H
  | H : ltb _ _ = false |- _ => apply ltb_false in H
  | H : leb _ _ = true |- _ => apply leb_true in H
  | H : leb _ _ = false |- _ => apply leb_false in H
  | H : eqb _ _ = true |- _ => apply eqb_true in H
  | H : eqb _ _ = false |- _ => apply eqb_false in H
  end; try (exfalso; lra).

(** Case analysis on the innermost conditions outside binders. *)
Ltac branches :=
  repeat match goal with
  | |- context [if ?c then _ else _] =>
      lazymatch c with
      | context [if _ then _ else _] => fail
      | _ => destruct c eqn:?
      end
  end.

(** Forget the environment: one real number for each input. *)
Ltac table e l :=
  lazymatch l with
  | cons ?n ?l' =>
      revert e; match goal with |- forall x : env, @?P x => apply (by_value P n) end;
      let r := fresh "r" in intros r e; cbv beta; table e l'
  | _ => idtac
  end.
Ltac numbers e :=
  repeat match goal with
  | |- context [e ?s] => let r := fresh "r" in generalize dependent (e s); intros r
  | H : context [e ?s] |- _ => let r := fresh "r" in generalize dependent (e s); intros r
  end.

Ltac conjuncts := repeat match goal with H : _ /\ _ |- _ => destruct H end.

Ltac derive_side := repeat split; try assumption; try solve [nonzero | pos].

Ltac derive_goal :=
  match goal with
  | |- is_derive (fun _ => ?c) _ _ => auto_derive; [trivial|]
  | |- _ => auto_derive; [minus_div; derive_side|]
  end.

(** The first two parts of [exact_partials]; the third as one goal for each output and input. *)
Ltac assigned_tac :=
  let o := fresh "o" in let Ho := fresh "Ho" in let e := fresh "e" in
  intros o Ho e _; split_in Ho; subst o; red_comp; branches; discriminate.
Ltac declared_tac :=
  apply only_declared_check; intro;
  lazy - [Rplus Rmult Rminus Ropp Rdiv Rinv IZR INR pw exp ln sqrt sin cos tan atan PI pow Rabs ltb leb eqb
          on ob oe Rmax Rmin floorR modR sin_int4 dydx_sin_int4];
  branches; reflexivity.
Ltac exact_start :=
  split; [assigned_tac|split; [declared_tac|]];
  let e := fresh "e" in let D := fresh "D" in let o := fresh "o" in let i := fresh "i" in
  let Ho := fresh "Ho" in let Hi := fresh "Hi" in
  intros e D o i Ho Hi; split_in Ho; subst o; split_in Hi; subst i; unfold exact_at.
Ltac except_start :=
  split; [assigned_tac|split; [declared_tac|]];
  let e := fresh "e" in let D := fresh "D" in let o := fresh "o" in let i := fresh "i" in
  let Ho := fresh "Ho" in let Hi := fresh "Hi" in let B := fresh "B" in
  intros e D o i Ho Hi B; split_in Ho; subst o; split_in Hi; subst i;
  try (exfalso; apply B; simpl; tauto); clear B; unfold exact_at.

(** Components whose conditions depend on options, or on inputs in the partials only.  Facts about the
    options are given as one hypothesis. *)
(** Further facts about the numbers of one area; redefined there. *)
Ltac facts := idtac.
Ltac exact_prepare :=
  match goal with
  | op : options |- is_derive (fun t => out ?c (upd ?e _ t) _) _ _ =>
      match goal with D : context [e] |- _ =>
        revert D; let l := eval hnf in (c_ins c) in table e l; intro D; red_comp_in D
      end;
      red_comp; try match goal with H : positive _ (on op) |- _ => red_comp_in H end;
      conjuncts; branches; facts; numbers (on op); intros
  end; decided.
Ltac exact_goals := exact_prepare; derive_goal; try solve [pw_field].
Ltac exact_solve := exact_start; exact_goals.
Ltac except_solve := except_start; exact_goals.

(** The function near the point: the conditions on the input are decided by [P]. *)
Ltac near P :=
  eapply (is_derive_near _ _ _ _ P);
  [ | let y := fresh "y" in let Hy := fresh "Hy" in intros y Hy; branches; decided; reflexivity | ].

Ltac proportional_solve := intros ? ?; red_comp; branches; unfold Rdiv; ring.

(** Witnesses: all inputs and numeric options equal to one. *)
Definition unit_options : options := {| on := fun _ => 1; ob := fun _ => false; oe := fun _ => ""%string |}.
Ltac unit_facts := idtac.
Ltac unit_value := red_comp; cbv [on ob oe unit_options]; unit_facts; branches; decided; pw_products; lra.

(** Positive inputs give a positive output. *)
Definition positive_output (c : comp) (o : string) : Prop := forall e, positive (c_ins c) e -> 0 < out c e o.
Ltac positive_solve :=
  let e := fresh "e" in let D := fresh "D" in
  intros e; match goal with |- positive (c_ins ?c) _ -> _ => let l := eval hnf in (c_ins c) in table e l end;
  intro D; red_comp_in D; red_comp; 
  match goal with op : options |- _ => try match goal with H : positive _ (on op) |- _ => red_comp_in H end; conjuncts; branches; facts; numbers (on op); intros end;
  decided; pos.
