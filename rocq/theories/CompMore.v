(** More rules and tactics for component derivatives, and components with node arrays. *)
From Coq Require Import Reals Lra Lia.
From Coquelicot Require Import Coquelicot.
From Verif Require Import Base Calc MathModel MathProofs Comp Vec.
Open Scope list_scope.
Open Scope string_scope.
Local Open Scope R_scope.

(** ** Node arrays *)
Definition mem (l : list string) (x : string) : bool := existsb (String.eqb x) l.

(** At every number [nn] of nodes: compute assigns every output, compute_partials assigns only declared pairs, and
    every entry of the Jacobian, apart from the pairs in [bad], is the derivative of that output entry with
    respect to that input entry.  [shared] are the inputs that are scalars; [dom] is the condition on the values
    that one node sees. *)
Definition exact_nodes (shared : list string) (c : comp) (dom : env -> Prop) (bad : list (string * string)) : Prop :=
  (forall o, In o (c_outs c) -> forall e, dom e -> dget o (c_run c e) <> None) /\
  only_declared c /\
  forall nn e, (forall k, (k < nn)%nat -> dom (slice (mem shared) e k)) ->
  forall o k i l, entry (v_outs (lift nn (mem shared) c)) o k -> entry (v_ins (lift nn (mem shared) c)) i l ->
  ~ In (o, i) bad ->
  is_derive (fun t => v_run (lift nn (mem shared) c) (vupd e i l t) o k) (e i l) (v_jac (lift nn (mem shared) c) e o k i l).

Lemma lift_at nn shared c e o k i l :
  exact_at c (slice shared e k) o i -> (if shared i then l = 0%nat else True) ->
  is_derive (fun t => v_run (lift nn shared c) (vupd e i l t) o k) (e i l) (v_jac (lift nn shared c) e o k i l).
Proof.
  intros A L. unfold exact_at in A. cbn [v_run v_jac lift]. destruct (shared i) eqn:S; cbn [orb].
  - subst l. unfold slice at 2 in A. rewrite S in A.
    eapply is_derive_ext; [|exact A]. intro t. cbn. now rewrite slice_shared.
  - destruct (Nat.eqb_spec k l) as [<-|N].
    + unfold slice at 2 in A. rewrite S in A. eapply is_derive_ext; [|exact A]. intro t. cbn. now rewrite slice_same.
    + eapply is_derive_ext; [|apply (is_derive_const (V := R_NormedModule) (out c (slice shared e k) o))]. intro t. cbn.
      now rewrite slice_other.
Qed.

Lemma nodes_except shared c dom bad : exact_except c dom bad -> exact_nodes shared c dom bad.
Proof.
  intros (A & B & C). split; [exact A|split; [exact B|]].
  intros nn e D o k i l (n & On & Kn) (m & Im & Lm) N. cbn in On, Im. apply in_map_iff in On.
  destruct On as (o' & E & Ho). inversion E; subst o' n. apply in_map_iff in Im. destruct Im as (i' & E' & Hi).
  inversion E'; subst i' m. apply lift_at; [apply C; auto|].
  destruct (mem shared i); [lia|trivial].
Qed.

Lemma nodes_exact shared c dom : exact_partials c dom -> exact_nodes shared c dom [].
Proof.
  intros (A & B & C). apply nodes_except. split; [exact A|split; [exact B|]]. intros. now apply C.
Qed.

(** The same for a component that leaves an output at its initial value: nothing is asked about assignment. *)
Definition jac_nodes (shared : list string) (c : comp) (dom : env -> Prop) : Prop :=
  only_declared c /\
  forall nn e, (forall k, (k < nn)%nat -> dom (slice (mem shared) e k)) ->
  forall o k i l, entry (v_outs (lift nn (mem shared) c)) o k -> entry (v_ins (lift nn (mem shared) c)) i l ->
  is_derive (fun t => v_run (lift nn (mem shared) c) (vupd e i l t) o k) (e i l) (v_jac (lift nn (mem shared) c) e o k i l).
Lemma nodes_jac shared c (dom : env -> Prop) :
  only_declared c -> (forall e, dom e -> forall o i, In o (c_outs c) -> In i (c_ins c) -> exact_at c e o i) ->
  jac_nodes shared c dom.
Proof.
  intros B C. split; [exact B|].
  intros nn e D o k i l (n & On & Kn) (m & Im & Lm). cbn in On, Im. apply in_map_iff in On.
  destruct On as (o' & E & Ho). inversion E; subst o' n. apply in_map_iff in Im. destruct Im as (i' & E' & Hi).
  inversion E'; subst i' m. apply lift_at; [apply C; auto|].
  destruct (mem shared i); [lia|trivial].
Qed.

(** ** Inverse sine *)
Lemma asin_derive x : -1 < x < 1 -> is_derive asin x (/ sqrt (1 - x ^ 2)).
Proof.
  intro H. apply is_derive_Reals. replace (x ^ 2) with (Rsqr x) by (unfold Rsqr; ring).
  replace (/ sqrt (1 - Rsqr x)) with (1 / sqrt (1 - Rsqr x)) by (unfold Rdiv; ring).
  apply (derive_pt_eq_1 _ _ _ (derivable_pt_asin x H)). apply derive_pt_asin.
Qed.
Global Instance UnaryDiff_asin : UnaryDiff' asin.
Proof. exists (fun x => / sqrt (1 - x ^ 2)) (fun x => -1 < x < 1). intros x Hx. now apply asin_derive. Defined.

Ltac red_comp ::=
  lazy - [Rplus Rmult Rminus Ropp Rdiv Rinv IZR INR pw exp ln sqrt sin cos tan atan asin acos PI pow Rabs is_derive ltb leb
         eqb on ob oe Rmax Rmin floorR modR not sin_int4 dydx_sin_int4 Rlt Rle].
Ltac red_comp_in H ::=
  lazy - [Rplus Rmult Rminus Ropp Rdiv Rinv IZR INR pw exp ln sqrt sin cos tan atan asin acos PI pow Rabs is_derive ltb leb
         eqb on ob oe Rmax Rmin floorR modR not sin_int4 dydx_sin_int4 Rlt Rle] in H.
Ltac declared_tac ::=
  apply only_declared_check; intro;
  lazy - [Rplus Rmult Rminus Ropp Rdiv Rinv IZR INR pw exp ln sqrt sin cos tan atan asin acos PI pow Rabs ltb leb eqb
          on ob oe Rmax Rmin floorR modR sin_int4 dydx_sin_int4];
  branches; reflexivity.

(** A polynomial is not zero because a quotient of it is not. *)
Ltac nonzero_of D :=
  let Z := fresh "Z" in intro Z; apply D; field_simplify_eq; [first [lra | nra]|repeat split; nonzero].
Ltac nonzero ::=
  match goal with
  | H : ?P |- ?P => exact H
  | |- _ * _ <> 0 => apply Rmult_integral_contrapositive_currified; nonzero
  | |- _ / _ <> 0 => apply Rmult_integral_contrapositive_currified; [nonzero|apply Rinv_neq_0_compat; nonzero]
  | |- / _ <> 0 => apply Rinv_neq_0_compat; nonzero
  | |- _ ^ _ <> 0 => apply pow_nonzero; nonzero
  | |- - _ <> 0 => apply Ropp_neq_0_compat; nonzero
  | H : cos ?b <> 0 |- cos ?a <> 0 => replace a with b by field; exact H
  | |- _ => first [lra | solve [apply Rgt_not_eq; red; pos] | solve [apply Rgt_not_eq; nra]
                  | match goal with D : _ <> 0 |- _ => solve [nonzero_of D] end]
  end.

Lemma one_minus_sq x : -1 < x -> x < 1 -> 0 < 1 - x ^ 2.
Proof. intros. nra. Qed.
Ltac pos ::=
  match goal with
  | H : ?P |- ?P => exact H
  | |- 0 < _ * _ => first [lra | apply Rmult_lt_0_compat; pos]
  | |- 0 < _ / _ => apply Rdiv_lt_0_compat; pos
  | |- 0 < / _ => apply Rinv_0_lt_compat; pos
  | |- 0 < _ ^ _ => apply pow_lt; pos
  | |- 0 < pw _ _ => apply pw_pos; pos
  | |- 0 < exp _ => apply exp_pos
  | |- 0 < PI => exact PI_RGT_0
  | |- 0 < sqrt _ => apply sqrt_lt_R0; pos
  | |- 0 < 1 + _ ^ 2 => apply one_plus_sq
  | |- 0 < 1 - ?x ^ 2 =>
      match goal with H : -1 < ?y, K : ?y < 1 |- _ => apply one_minus_sq; (replace x with y by (field; nonzero)); assumption end
  | |- 0 < _ + _ => first [lra | apply Rplus_lt_0_compat; pos]
  | |- _ => lra
  end.

(** ** Half-integer powers *)
Lemma half_up a k x : 0 < x -> a = INR k / 2 -> pw a x = sqrt x ^ k.
Proof. intros X ->. rewrite (sqrt_pw x X), (pow_pw k _ x X). f_equal. field. Qed.
Lemma half_down a k x : 0 < x -> a = - (INR k / 2) -> pw a x = / sqrt x ^ k.
Proof.
  intros X ->. rewrite (sqrt_pw x X), (pow_pw k _ x X). apply (Rmult_eq_reg_r (pw (1 / 2 * INR k) x)).
  - rewrite <- pw_plus by exact X. rewrite Rinv_l by now apply Rgt_not_eq, pw_pos. apply pw_zero; [exact X|field].
  - now apply Rgt_not_eq, pw_pos.
Qed.

Ltac fold_pow :=
  repeat match goal with
  | |- context [?r * (?r * (?r * (?r * 1)))] => change (r * (r * (r * (r * 1)))) with (r ^ 4)
  | |- context [?r * (?r * (?r * 1))] => change (r * (r * (r * 1))) with (r ^ 3)
  | |- context [?r * (?r * 1)] => change (r * (r * 1)) with (r ^ 2)
  end.

(** Every power of [x] with a half-integer exponent as a power of its square root. *)
Ltac half_powers :=
  repeat match goal with
  | |- context [pw ?a ?x] =>
      first [rewrite (half_up a 1 x) by (solve [pos | inr]) | rewrite (half_up a 3 x) by (solve [pos | inr])
            | rewrite (half_up a 5 x) by (solve [pos | inr]) | rewrite (half_up a 7 x) by (solve [pos | inr])
            | rewrite (half_down a 1 x) by (solve [pos | inr]) | rewrite (half_down a 3 x) by (solve [pos | inr])
            | rewrite (half_down a 5 x) by (solve [pos | inr]) | rewrite (half_down a 7 x) by (solve [pos | inr])]
  end.
(** Square roots and powers of equal numbers. *)
Ltac same_roots :=
  same_arg sqrt;
  repeat match goal with
  | |- context [pw ?a ?x] =>
      match goal with |- context [pw ?b ?y] =>
        tryif constr_eq x y then fail else replace (pw b y) with (pw b x) by (f_equal; field; repeat split; nonzero) end
  end;
  repeat match goal with
  | |- context [pw ?a ?x] =>
      match goal with |- context [sqrt ?y] =>
        tryif constr_eq x y then fail else replace (sqrt y) with (sqrt x) by (f_equal; field; repeat split; nonzero) end
  end.
(** A variable under a square root is a square; the root of a numeral is a number with that square. *)
Ltac square_vars :=
  repeat match goal with
  | |- context [sqrt ?x] =>
      is_var x; let s := fresh "s" in let S := fresh "S" in let E := fresh "E" in
      assert (S : 0 < sqrt x) by (apply sqrt_lt_R0; pos);
      assert (E : x = sqrt x ^ 2) by (symmetry; apply pow2_sqrt; left; pos);
      revert S E; generalize (sqrt x); intros s S E; subst x
  | |- context [sqrt ?x] =>
      let s := fresh "s" in let S := fresh "S" in let E := fresh "E" in
      assert (S : 0 < sqrt x) by (apply sqrt_lt_R0; pos);
      assert (E : sqrt x ^ 2 = x) by (apply pow2_sqrt; left; pos);
      revert S E; generalize (sqrt x); intros s S E
  end.
Ltac sqrt_products :=
  repeat match goal with
  | |- context [sqrt (?x * ?y)] => rewrite (sqrt_mult_alt x y) by (left; pos)
  | |- context [sqrt (?x / ?y)] => rewrite (sqrt_div_alt x y) by pos
  | |- context [sqrt (/ ?x)] => rewrite (sqrt_inv x)
  | |- context [sqrt 1] => rewrite sqrt_1
  end.
Ltac field_mod :=
  match goal with
  | E : ?s ^ 2 = _, F : ?t ^ 2 = _ |- _ => is_var s; is_var t; tryif constr_eq s t then fail else field [E F]
  | E : ?s ^ 2 = _ |- _ => is_var s; field [E]
  | |- _ => field
  end.
Ltac half_prepare :=
  minus_div; fold_pow; rewrite ?Rmult_1_r, ?Rmult_1_l; unfold tan; same_roots;
  repeat match goal with
  | |- context [pw ?a 1] => rewrite (pw_1 a)
  | |- context [pw ?a (?x * ?y)] => rewrite (pw_mult a x y) by pos
  | |- context [pw ?a (?x / ?y)] => rewrite (pw_div a x y) by pos
  end; half_powers; sqrt_products; square_vars; same_arg asin; fun_norm.
Ltac half_field := half_prepare; field_mod; repeat split; nonzero.

(** ** Conditions on the differentiated input: away from the threshold they do not change. *)
Lemma locally_neg (F : R -> R) x : continuous F x -> F x < 0 -> locally x (fun t => F t < 0).
Proof. intros C H. apply (C (fun y => y < 0)). apply (open_lt 0). exact H. Qed.
Lemma locally_pos (F : R -> R) x : continuous F x -> 0 < F x -> locally x (fun t => 0 < F t).
Proof. intros C H. apply (C (fun y => 0 < y)). apply (open_gt 0). exact H. Qed.

Ltac threshold f :=
  constr:(fun t : R => ltac:(let b := eval cbv beta in (f t) in
    match b with
    | context [ltb ?a ?c] => exact (a - c)
    | context [leb ?a ?c] => exact (a - c)
    end)).
Ltac smooth := apply (ex_derive_continuous (V := R_NormedModule)); auto_derive; minus_div; derive_side.
Ltac settle_on Q :=
  eapply (is_derive_near _ _ _ _ Q);
  [ | let y := fresh "y" in let Hy := fresh "Hy" in intros y Hy; cbv beta in Hy; branches; decided; reflexivity | ].
Ltac settle :=
  match goal with
  | |- is_derive ?f ?x _ =>
      let F := threshold f in
      let C := fresh "C" in assert (C : continuous F x) by smooth;
      destruct (Rtotal_order (F x) 0) as [?H|[?H|?H]]; cbv beta in *;
      [ first [exfalso; lra | settle_on (fun t : R => F t < 0); [now apply (locally_neg F)|clear C]]
      | exfalso; first [lra | nra]
      | first [exfalso; lra | settle_on (fun t : R => 0 < F t); [now apply (locally_pos F)|clear C]] ]
  end; branches; decided.

Ltac facts ::= rewrite ?cos_0, ?sin_0.
Ltac more_goals :=
  exact_prepare; repeat settle; derive_goal; try solve [pw_field]; try solve [half_field].
Ltac nodes_solve := apply nodes_exact; exact_start; more_goals.
Ltac jac_start :=
  apply nodes_jac; [declared_tac|];
  let e := fresh "e" in let D := fresh "D" in let o := fresh "o" in let i := fresh "i" in
  let Ho := fresh "Ho" in let Hi := fresh "Hi" in
  intros e D o i Ho Hi; split_in Ho; subst o; split_in Hi; subst i; unfold exact_at.
Ltac nodes_except_solve := apply nodes_except; except_start; more_goals.

(** ** Triangles with an inverse sine *)
Lemma cos_asin_sqrt x : -1 < x -> x < 1 -> cos (asin x) = sqrt (1 - x ^ 2).
Proof. intros. rewrite cos_asin by lra. f_equal. unfold Rsqr. ring. Qed.
Lemma asin_pos x : 0 < x -> x < 1 -> 0 < asin x.
Proof.
  intros P L. apply Rnot_le_lt. intro N. pose proof (asin_bound_lt x ltac:(lra)) as B.
  pose proof (sin_incr_1 (asin x) 0 ltac:(lra) ltac:(lra) ltac:(lra) ltac:(lra) N) as S.
  rewrite sin_0, sin_asin in S by lra. lra.
Qed.
Lemma tan_sq a : cos a <> 0 -> 1 + tan a ^ 2 = (1 / cos a) ^ 2.
Proof. intro C. unfold tan. pose proof (sin2_cos2 a) as E. unfold Rsqr in E.
  replace (1 + (sin a / cos a) ^ 2) with ((sin a * sin a + cos a * cos a) / cos a ^ 2) by (field; exact C). rewrite E.
  field. exact C.
Qed.
