(** Lift dependent drag: claim C60. *)
From Coq Require Import Reals Lra Lia.
From Coquelicot Require Import Coquelicot.
From Verif Require Import Base Calc MathModel MathProofs Comp CompMore CompFun FAeroModel FAeroProofs.
Local Open Scope R_scope.

(** LiftDependentDrag.edge_interp, /repo/aviary/subsystems/aerodynamics/flops_based/lift_dependent_drag.py L71-87: the value, the
    derivative with respect to A, and the derivative with respect to what the two table values depend on. *)
Definition edge (A1 A2 F1 F2 A : R) : R := 2 * F1 * F2 * (1 / ((A - A1) * F1 - (A - A2) * F2)).  (* L72-73 *)
Definition edge_dA (A1 A2 F1 F2 A : R) : R :=
  let den := 1 / ((A - A1) * F1 - (A - A2) * F2) in 2 * F1 * F2 * (F2 - F1) * den ^ 2.  (* L76 *)
Definition edge_dDEL (A1 A2 F1 F2 d1 d2 A : R) : R :=
  let den := 1 / ((A - A1) * F1 - (A - A2) * F2) in  (* L78-85 *)
  2 * den * (d1 * (F2 - F1 * F2 * den * (A - A1)) + d2 * (F1 + F1 * F2 * den * (A - A2))).
(** LiftDependentDrag.inner_interp, L89-117: the interpolation in A is linear in the five table values; l0 ... l4 are its
    coefficients and k0 ... k4 their derivatives. *)
Definition five (l : nat -> R -> R) (f : nat -> R) (a : R) : R := l 0%nat a * f 0%nat + l 1%nat a * f 1%nat + l 2%nat a * f 2%nat + l 3%nat a * f 3%nat + l 4%nat a * f 4%nat.
Theorem C60_edge_rates A1 A2 T T1 T2 U U1 U2 m c a : smooth_at T T1 T2 m c -> smooth_at U U1 U2 m c -> (a - A1) * T m c - (a - A2) * U m c <> 0 ->
  smooth3 (fun m c a => edge A1 A2 (T m c) (U m c) a)
    (fun m c a => edge_dDEL A1 A2 (T m c) (U m c) (T1 m c) (U1 m c) a) (fun m c a => edge_dDEL A1 A2 (T m c) (U m c) (T2 m c) (U2 m c) a)
    (fun m c a => edge_dA A1 A2 (T m c) (U m c) a) m c a.
Proof.
  intros S S' N u v w x du dv dw Eu Ev Ew DU DV DW. subst m c a.
  assert (A := table_rate T T1 T2 u v x du dv S DU DV). assert (B := table_rate U U1 U2 u v x du dv S' DU DV).
  revert A B N. unfold edge, edge_dA, edge_dDEL. cbv zeta.
  generalize (T1 (u x) (v x)) (T2 (u x) (v x)) (U1 (u x) (v x)) (U2 (u x) (v x)). intros t1 t2 u1 u2.
  set (f := fun t => T (u t) (v t)). set (g := fun t => U (u t) (v t)). change (T (u x) (v x)) with (f x). change (U (u x) (v x)) with (g x).
  intros A B N. change (is_derive f x (t1 * du + t2 * dv)) in A. change (is_derive g x (u1 * du + u2 * dv)) in B.
  change (is_derive (fun t => 2 * f t * g t * (1 / ((w t - A1) * f t - (w t - A2) * g t))) x
    (2 * (1 / ((w x - A1) * f x - (w x - A2) * g x)) *
       (t1 * (g x - f x * g x * (1 / ((w x - A1) * f x - (w x - A2) * g x)) * (w x - A1)) + u1 * (f x + f x * g x * (1 / ((w x - A1) * f x - (w x - A2) * g x)) * (w x - A2))) * du +
     2 * (1 / ((w x - A1) * f x - (w x - A2) * g x)) *
       (t2 * (g x - f x * g x * (1 / ((w x - A1) * f x - (w x - A2) * g x)) * (w x - A1)) + u2 * (f x + f x * g x * (1 / ((w x - A1) * f x - (w x - A2) * g x)) * (w x - A2))) * dv +
     2 * f x * g x * (g x - f x) * (1 / ((w x - A1) * f x - (w x - A2) * g x)) ^ 2 * dw)).
  clearbody f g. known A. known B. known DW. auto_derive; minus_div; [repeat split; assumption|].
  put_derive A. put_derive B. put_derive DW. plain. field. exact N.
Qed.
Print Assumptions C60_edge_rates.
Example C60_witness_edge_rates : edge 4 6 3 3 7 = 3 /\ edge_dA 4 6 3 3 7 = 0 /\ (7 - 4) * 3 - (7 - 6) * 3 <> 0.
Proof. unfold edge, edge_dA. repeat split; lra. Qed.

(** The value is the reciprocal of the linear interpolation of the reciprocals, times 2 / (A2 - A1): it meets the tables only where
    the two points are 2 apart. *)
Theorem C60_edge_reciprocal A1 A2 F1 F2 A : A1 <> A2 -> F1 <> 0 -> F2 <> 0 -> (A - A1) * F1 - (A - A2) * F2 <> 0 ->
  edge A1 A2 F1 F2 A = 2 / (A2 - A1) * / ((A2 - A) / (A2 - A1) * / F1 + (A - A1) / (A2 - A1) * / F2).
Proof.
  intros N P Q D. unfold edge. assert (A2 - A1 <> 0) by lra. field. repeat split; try assumption; intro Z; apply D; lra.
Qed.
Print Assumptions C60_edge_reciprocal.
Example C60_witness_edge_reciprocal : edge 0 2 1 3 1 = / ((2 - 1) / (2 - 0) * / 1 + (1 - 0) / (2 - 0) * / 3).
Proof. unfold edge. lra. Qed.
Theorem C60_edge_jump_refuted F1 F2 : F1 <> 0 -> F2 <> 0 ->
  edge (5 / 10) 1 F1 F2 (5 / 10) = 4 * F1 /\ edge 4 6 F1 F2 6 = F2 /\ edge (7 / 10) (8 / 10) F1 F2 (7 / 10) = 20 * F1 /\ edge (18 / 10) 2 F1 F2 2 = 10 * F2.
Proof.
  intros P Q. unfold edge. repeat split.
  - replace ((5 / 10 - 5 / 10) * F1 - (5 / 10 - 1) * F2) with (F2 / 2) by lra. field. exact Q.
  - replace ((6 - 4) * F1 - (6 - 6) * F2) with (F1 * 2) by lra. field. exact P.
  - replace ((7 / 10 - 7 / 10) * F1 - (7 / 10 - 8 / 10) * F2) with (F2 / 10) by lra. field. exact Q.
  - replace ((2 - 18 / 10) * F1 - (2 - 2) * F2) with (F1 / 5) by lra. field. exact P.
Qed.
Print Assumptions C60_edge_jump_refuted.
Example C60_witness_edge_jump : edge (7 / 10) (8 / 10) 1 1 (7 / 10) = 20.
Proof. unfold edge. lra. Qed.

Theorem C60_inner_rates (l k : nat -> R -> R) (T T1 T2 : nat -> R -> R -> R) m c a :
  (forall j, (j < 5)%nat -> smooth_at (T j) (T1 j) (T2 j) m c) -> (forall j, (j < 5)%nat -> is_derive (l j) a (k j a)) ->
  smooth3 (fun m c a => five l (fun j => T j m c) a) (fun m c a => five l (fun j => T1 j m c) a) (fun m c a => five l (fun j => T2 j m c) a)
    (fun m c a => five k (fun j => T j m c) a) m c a.
Proof.
  intros S L u v w x du dv dw Eu Ev Ew DU DV DW. subst m c a. unfold five.
  assert (P : forall j, (j < 5)%nat -> is_derive (fun t => l j (w t) * T j (u t) (v t)) x
      (l j (w x) * (T1 j (u x) (v x) * du + T2 j (u x) (v x) * dv) + k j (w x) * dw * T j (u x) (v x))).
  { intros j J. assert (A := table_rate _ _ _ u v x du dv (S j J) DU DV).
    assert (B : is_derive (fun t => l j (w t)) x (k j (w x) * dw)).
    { eapply is_derive_eq; [apply (is_derive_comp (l j) w x); [exact (L j J)|exact DW]|]. cbv [scal]. simpl. cbv [mult]. simpl. ring. }
    eapply is_derive_eq; [apply (two_factors (fun t => l j (w t)) (fun t => T j (u t) (v t)) x _ _ B A)|]. cbv beta. plain. ring. }
  eapply is_derive_eq.
  - apply @is_derive_plus; [apply @is_derive_plus; [apply @is_derive_plus; [apply @is_derive_plus|]|]|]; apply P; lia.
  - cbv [plus]. simpl. plain. ring.
Qed.
Print Assumptions C60_inner_rates.
Example C60_witness_inner_rates : five (fun j _ => INR j) (fun j => INR j) 7 = 30.
Proof. unfold five. simpl. lra. Qed.

Global Opaque smooth3.
Lemma drag_nonzero f c a t : f <> 0 -> c <> 0 -> 0 < a -> 0 < t -> f * c * (a * t ** (1 / 3)) / a <> 0.
Proof.
  intros A B C D. assert (P := pw_pos (1 / 3) t D). unfold Rdiv.
  apply Rmult_integral_contrapositive_currified; [|apply Rinv_neq_0_compat; lra].
  repeat apply Rmult_integral_contrapositive_currified; try assumption; lra.
Qed.
Section LiftDependent.
Variables F F1 F2 F3 : R -> R -> R -> R.
Definition ldd_point (op : options) (e : env) (P : R -> R -> R -> Prop) : Prop :=
  P (e Dynamic_Atmosphere_MACH - e Aircraft_Design_MACH)
    (2 * e Dynamic_Vehicle_LIFT / (e Aircraft_Wing_AREA * on op v_gamma * e Dynamic_Atmosphere_STATIC_PRESSURE * e Dynamic_Atmosphere_MACH ^ 2) - e Aircraft_Design_LIFT_COEFFICIENT)
    (e Aircraft_Wing_ASPECT_RATIO * e Aircraft_Wing_THICKNESS_TO_CHORD ** (1 / 3)).
Theorem C60_LiftDependentDrag op : 0 < on op v_gamma -> exact_nodes LiftDependentDrag_shared (LiftDependentDrag F F1 F2 F3 op) (fun e =>
  positive [Dynamic_Atmosphere_MACH; Dynamic_Atmosphere_STATIC_PRESSURE; Aircraft_Wing_AREA; Aircraft_Wing_ASPECT_RATIO; Aircraft_Wing_THICKNESS_TO_CHORD] e /\
  ldd_point op e (smooth3 F F1 F2 F3) /\ ldd_point op e (fun m c a => F m c a <> 0) /\ 1 + e Aircraft_Wing_MAX_CAMBER_AT_70_SEMISPAN / 10 <> 0) [].
Proof.
  intros G. unfold v_gamma in G. apply nodes_exact. exact_start; table_prepare.
  all: branches; decided.
  all: try match goal with |- is_derive (fun _ => ?c) _ _ => apply (is_derive_const (V := R_NormedModule)) end.
  all: try match goal with |- is_derive (fun t => if ltb (F (@?u t) (@?v t) (@?w t) * (@?g t) * (@?w t) / (@?h t)) 0 then 0 else _) ?x _ =>
    eapply is_derive_eq; [apply (clamp_lt (fun t => F (u t) (v t) (w t) * g t * w t / h t) x);
      [apply (drag_rate F F1 F2 F3 u v w g h x); [assumption|inner|inner|inner|inner|inner|apply Rgt_not_eq; assumption] | cbv beta; apply drag_nonzero; assumption]|] end.
  all: cbv beta; try match goal with
    | H : ?a < 0 |- (if ltb ?a 0 then _ else _) = _ => rewrite (ltb_intro a 0 H); reflexivity
    | H : 0 <= ?a |- (if ltb ?a 0 then _ else _) = _ => rewrite (ltb_intro_false a 0 H) end.
  all: try match goal with |- is_derive (fun _ => ?c) _ _ => eapply is_derive_eq; [apply (is_derive_const (V := R_NormedModule))|] end.
  all: change (@zero R_NormedModule) with 0; change (@one R_AbsRing) with 1; plain.
  all: try match goal with |- context [F3 ?a ?b ?c] => generalize (F3 a b c); intro end;
    try match goal with |- context [F2 ?a ?b ?c] => generalize (F2 a b c); intro end;
    try match goal with |- context [F1 ?a ?b ?c] => generalize (F1 a b c); intro end;
    try match goal with |- context [F ?a ?b ?c] => generalize (F a b c); intro end.
  all: replace (1 / 3 - 1) with (- 2 / 3) by lra.
  all: clear H0 H1.
  all: try (field; repeat split; lra).
Qed.
End LiftDependent.
Print Assumptions C60_LiftDependentDrag.
Example C60_witness_LiftDependentDrag : smooth3 (fun x y z => x + y + z + 10) (fun _ _ _ => 1) (fun _ _ _ => 1) (fun _ _ _ => 1) 0 1 1 /\
  out (LiftDependentDrag (fun x y z => x + y + z + 10) (fun _ _ _ => 1) (fun _ _ _ => 1) (fun _ _ _ => 1) unit_options) (fun _ => 1) v_pressure_drag_coeff = 132 / 10.
Proof. split; [apply smooth3_sum|]. cbv [out LiftDependentDrag c_run LiftDependentDrag_compute dget]. simpl. rewrite pw_1, ltb_intro_false by lra. lra. Qed.
