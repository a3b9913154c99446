(** Cruise components along the nodes of a phase: exact partials for any number of nodes, additivity, least squares. *)
From Coq Require Import Reals Lra Lia Psatz.
From Coquelicot Require Import Coquelicot.
From Verif Require Import Base MathModel MathProofs Comp Vec CompMore Arr CruiseModel.
Open Scope list_scope.
Open Scope string_scope.
Local Open Scope R_scope.

(** ** Exact partials *)
Ltac names := cbv [v_cruise_time_initial v_cruise_distance_initial v_TAS_cruise v_mass v_FUEL v_ENERGY v_POWER v_cruise_time
  v_cruise_range v_time v_DISTANCE v_EAS v_MACH v_speed_constraint] in *.

(** The derivative of everything follows from the derivative of the distance of one segment. *)
Definition segment_exact (nn : nat) (d : venv -> nat -> R) (first second : venv -> string -> nat -> R) (e : venv) (i : string) : Prop :=
  forall j l, (S j < nn)%nat -> (l < nn)%nat ->
  is_derive (fun t => d (vupd e i l t) j) (e i l) (two_diagonals (first e i) (second e i) (S j) l).

Lemma running_sum nn d first second e i k l : segment_exact nn d first second e i -> (k < nn)%nat -> (l < nn)%nat ->
  is_derive (fun t => vsum k (d (vupd e i l t))) (e i l) (lower (matmul nn tri (two_diagonals (first e i) (second e i))) k l).
Proof.
  intros H K L. rewrite tri_diagonals by assumption. apply vsum_derive. intros j J. apply H; lia.
Qed.

Lemma const_derive (c : R) x : is_derive (fun _ : R => c) x 0.
Proof. apply (is_derive_const (V := R_NormedModule)). Qed.

Lemma is_derive_eq (f : R -> R) x a b : is_derive f x a -> a = b -> is_derive f x b.
Proof. intros H <-. exact H. Qed.


Lemma initial_time nn d first second e o k :
  (forall t j, d (vupd e v_cruise_time_initial 0 t) j = d e j) -> o = v_cruise_time \/ o = v_cruise_range ->
  is_derive (fun t => cruise_run d (vupd e v_cruise_time_initial 0 t) o k) (e v_cruise_time_initial 0%nat)
    (cruise_jac nn d first second e o k v_cruise_time_initial 0).
Proof.
  intros Z [-> | ->].
  - change (cruise_jac _ _ _ _ _ _ _ _ _) with 1. destruct k as [|j].
    + apply (is_derive_id (K := R_AbsRing)).
    + apply (is_derive_ext (fun t => t + vsum (S j) (d e) / mean_speed e j)).
      * intro t. change (cruise_run d (vupd e v_cruise_time_initial 0 t) v_cruise_time (S j))
          with (t + vsum (S j) (d (vupd e v_cruise_time_initial 0 t)) / mean_speed e j).
        now rewrite (vsum_ext (S j) (d (vupd e v_cruise_time_initial 0 t)) (d e)) by (intros; apply Z).
      * auto_derive; [trivial|ring].
  - change (cruise_jac _ _ _ _ _ _ _ _ _) with 0. apply (is_derive_ext (fun t => cruise_run d e v_cruise_range k)); [|apply const_derive].
    intro t. destruct k as [|j]; [reflexivity|]. change (cruise_run d (vupd e v_cruise_time_initial 0 t) v_cruise_range (S j))
      with (e v_cruise_distance_initial 0%nat + vsum (S j) (d (vupd e v_cruise_time_initial 0 t))).
    now rewrite (vsum_ext (S j) (d (vupd e v_cruise_time_initial 0 t)) (d e)) by (intros; apply Z).
Qed.

Lemma initial_distance nn d first second e o k :
  (forall t j, d (vupd e v_cruise_distance_initial 0 t) j = d e j) -> o = v_cruise_time \/ o = v_cruise_range ->
  is_derive (fun t => cruise_run d (vupd e v_cruise_distance_initial 0 t) o k) (e v_cruise_distance_initial 0%nat)
    (cruise_jac nn d first second e o k v_cruise_distance_initial 0).
Proof.
  intros Z [-> | ->].
  - change (cruise_jac _ _ _ _ _ _ _ _ _) with 0. apply (is_derive_ext (fun t => cruise_run d e v_cruise_time k)); [|apply const_derive].
    intro t. destruct k as [|j]; [reflexivity|]. change (cruise_run d (vupd e v_cruise_distance_initial 0 t) v_cruise_time (S j))
      with (e v_cruise_time_initial 0%nat + vsum (S j) (d (vupd e v_cruise_distance_initial 0 t)) / mean_speed e j).
    now rewrite (vsum_ext (S j) (d (vupd e v_cruise_distance_initial 0 t)) (d e)) by (intros; apply Z).
  - change (cruise_jac _ _ _ _ _ _ _ _ _) with 1. destruct k as [|j].
    + apply (is_derive_id (K := R_AbsRing)).
    + apply (is_derive_ext (fun t => t + vsum (S j) (d e))).
      * intro t. change (cruise_run d (vupd e v_cruise_distance_initial 0 t) v_cruise_range (S j))
          with (t + vsum (S j) (d (vupd e v_cruise_distance_initial 0 t))).
        now rewrite (vsum_ext (S j) (d (vupd e v_cruise_distance_initial 0 t)) (d e)) by (intros; apply Z).
      * auto_derive; [trivial|ring].
Qed.

Lemma array_range nn d first second e i k l : String.eqb i v_cruise_time_initial = false ->
  String.eqb i v_cruise_distance_initial = false -> (k < nn)%nat -> (l < nn)%nat ->
  segment_exact nn d first second e i ->
  is_derive (fun t => cruise_run d (vupd e i l t) v_cruise_range k) (e i l) (cruise_jac nn d first second e v_cruise_range k i l).
Proof.
  intros Nt Nd K L X. unfold cruise_jac. rewrite Nt, Nd. change (v_cruise_range =? v_cruise_range) with true. cbv iota.
  apply (is_derive_ext (fun t => e v_cruise_distance_initial 0%nat + vsum k (d (vupd e i l t)))).
  - intro t. unfold cruise_run. change (v_cruise_range =? v_cruise_range) with true. cbv iota zeta.
    rewrite vupd_name by (intro E; rewrite E, String.eqb_refl in Nd; discriminate). destruct k; [cbn; ring|reflexivity].
  - eapply is_derive_eq; [apply (is_derive_plus (fun _ => e v_cruise_distance_initial 0%nat) (fun t => vsum k (d (vupd e i l t))));
      [apply const_derive|now apply (running_sum nn d first second)]|]. unfold plus. cbn. ring.
Qed.

Lemma array_time nn d first second e i k l : String.eqb i v_cruise_time_initial = false ->
  String.eqb i v_cruise_distance_initial = false -> (k < nn)%nat -> (l < nn)%nat ->
  (forall j, (S j < nn)%nat -> mean_speed e j <> 0) -> segment_exact nn d first second e i ->
  is_derive (fun t => cruise_run d (vupd e i l t) v_cruise_time k) (e i l) (cruise_jac nn d first second e v_cruise_time k i l).
Proof.
  intros Nt Nd K L M X. unfold cruise_jac. rewrite Nt, Nd. change (v_cruise_time =? v_cruise_range) with false. cbv iota.
  assert (N : v_cruise_time_initial <> i) by (intro E; rewrite E, String.eqb_refl in Nt; discriminate).
  destruct k as [|j].
  - apply (is_derive_ext (fun t => e v_cruise_time_initial 0%nat)); [|apply const_derive].
    intro t. unfold cruise_run. change (v_cruise_time =? v_cruise_range) with false. cbv iota zeta. now rewrite vupd_name.
  - pose proof (running_sum nn d first second e i (S j) l X K L) as D. specialize (M j K).
    apply (is_derive_ext (fun t => e v_cruise_time_initial 0%nat + vsum (S j) (d (vupd e i l t)) / mean_speed (vupd e i l t) j)).
    { intro t. unfold cruise_run. change (v_cruise_time =? v_cruise_range) with false. cbv iota zeta. now rewrite vupd_name. }
    assert (S0 : vupd e i l (e i l) = e).
    { apply FunctionalExtensionality.functional_extensionality. intro x.
      apply FunctionalExtensionality.functional_extensionality. intro y. unfold vupd.
      destruct (String.eqb_spec x i) as [->|], (Nat.eqb_spec y l) as [->|]; reflexivity. }
    destruct (String.eqb_spec i v_TAS_cruise) as [->|NT].
    + assert (G : is_derive (fun t => mean_speed (vupd e v_TAS_cruise l t) j) (e v_TAS_cruise l)
        (two_diagonals (fun _ => 5 / 10) (fun _ => 5 / 10) (S j) l)).
      { unfold mean_speed. cbn [two_diagonals]. destruct (Nat.eqb_spec l j) as [->|N1].
        - apply (is_derive_ext (fun t => (t + e v_TAS_cruise (S j)) / 2)).
          { intro t. now rewrite vupd_same, vupd_index by lia. }
          auto_derive; [trivial|field].
        - destruct (Nat.eqb_spec l (S j)) as [->|N2].
          + apply (is_derive_ext (fun t => (e v_TAS_cruise j + t) / 2)).
            { intro t. now rewrite vupd_same, vupd_index by lia. }
            auto_derive; [trivial|field].
          + apply (is_derive_ext (fun t => (e v_TAS_cruise j + e v_TAS_cruise (S j)) / 2)); [|apply const_derive].
            intro t. now rewrite !vupd_index by lia. }
      eapply is_derive_eq; [apply (is_derive_plus (fun _ => e v_cruise_time_initial 0%nat)); [apply const_derive|
        apply (is_derive_div (fun t => vsum (S j) (d (vupd e v_TAS_cruise l t))) (fun t => mean_speed (vupd e v_TAS_cruise l t) j) _ _ _ D G);
        now rewrite S0]|].
      rewrite S0. unfold plus. cbn [AbelianGroup.plus]. cbn -[vsum two_diagonals matmul pow].
      unfold lower. destruct (Nat.leb_spec l (S j)).
      * unfold Rdiv. ring.
      * cbn [two_diagonals]. destruct (Nat.eqb_spec l j); [lia|]. destruct (Nat.eqb_spec l (S j)); [lia|].
        unfold Rdiv. ring.
    + apply (is_derive_ext (fun t => e v_cruise_time_initial 0%nat + / mean_speed e j * vsum (S j) (d (vupd e i l t)))).
      { intro t. unfold mean_speed, Rdiv. rewrite !(vupd_name e i l t v_TAS_cruise) by congruence.
        match goal with |- ?a = ?b => change (@eq R a b) end. ring. }
      eapply is_derive_eq; [apply (is_derive_plus (fun _ => e v_cruise_time_initial 0%nat)
        (fun t => / mean_speed e j * vsum (S j) (d (vupd e i l t)))); [apply const_derive|
        apply (is_derive_scal (fun t => vsum (S j) (d (vupd e i l t)))); exact D]|].
      unfold plus, scal. cbn -[vsum lower matmul two_diagonals]. unfold mult. cbn -[vsum lower matmul two_diagonals]. unfold Rdiv. ring.
Qed.

(** ** Breguet cruise *)
Definition breguet_dom (nn : nat) (e : venv) : Prop :=
  (forall k, (k < nn)%nat -> 0 < e v_mass k /\ e v_FUEL k <> 0) /\ (forall j, (S j < nn)%nat -> mean_speed e j <> 0).

Ltac at_node j l :=
  cbn [two_diagonals]; destruct (Nat.eqb_spec l j) as [->|?N1];
  [|destruct (Nat.eqb_spec l (S j)) as [->|?N2]].

(** Entries that were or were not updated, also under a binder. *)
Ltac upd_simpl :=
  unfold vupd;
  repeat match goal with |- context [String.eqb ?a ?b] => let c := eval compute in (String.eqb a b) in change (String.eqb a b) with c end;
  cbn [andb];
  repeat match goal with
  | |- context [Nat.eqb ?a ?a] => rewrite (Nat.eqb_refl a)
  | |- context [Nat.eqb ?a ?b] => rewrite (proj2 (Nat.eqb_neq a b)) by lia
  end; cbv iota.

Lemma breguet_segment nn e i : breguet_dom nn e -> i = v_FUEL \/ i = v_mass \/ i = v_TAS_cruise ->
  segment_exact nn breguet_drange breguet_first breguet_second e i.
Proof.
  intros (P & _) I j l J L. destruct (P j ltac:(lia)) as (P1 & F1). destruct (P (S j) ltac:(lia)) as (P2 & F2). clear P.
  assert (A : 0 < 1 / (1 - (e v_mass j * 1 - e v_mass (S j) * 1) / (e v_mass j * 1))).
  { replace (1 - (e v_mass j * 1 - e v_mass (S j) * 1) / (e v_mass j * 1)) with (e v_mass (S j) / e v_mass j) by (field; lra).
    apply Rdiv_lt_0_compat; [lra|]. now apply Rdiv_lt_0_compat. }
  assert (B : 1 - (e v_mass j * 1 - e v_mass (S j) * 1) / (e v_mass j * 1) <> 0).
  { intro B. rewrite B in A. unfold Rdiv in A. rewrite Rinv_0 in A. lra. }
  destruct I as [-> | [-> | ->]]; at_node j l.
  all: unfold breguet_drange, breguet_factor, breguet_star, breguet_first, breguet_second, GRAV_ENGLISH_LBM.
  all: upd_simpl.
  all: try apply const_derive.
  all: unfold breguet_factor, breguet_star, GRAV_ENGLISH_LBM.
  all: revert P1 P2 F1 F2 A B; generalize (e v_mass j) (e v_mass (S j)) (e v_FUEL j) (e v_FUEL (S j)) (e v_TAS_cruise j) (e v_TAS_cruise (S j));
    intros m1 m2 f1 f2 u1 u2 P1 P2 F1 F2 A B.
  all: auto_derive; [repeat split; try assumption; lra|].
  all: unfold Rdiv, Rminus; try (generalize (ln (1 * / (1 + - ((m1 * 1 + - (m2 * 1)) * / (m1 * 1))))); intro s).
  all: field; repeat split; lra.
Qed.

Theorem C42_RangeComp nn : vexact (RangeComp nn) (breguet_dom nn).
Proof.
  intros e D o k (n & On & K) i l (m & Im & L).
  assert (K' : (k < nn)%nat /\ (o = v_cruise_time \/ o = v_cruise_range)).
  { cbn in On. destruct On as [E|[E|[]]]; inversion E; subst; auto. }
  clear On K. destruct K' as (K & O). cbn in Im.
  destruct Im as [E|[E|[E|[E|[E|[]]]]]]; inversion E; subst i m; clear E.
  1,2: assert (l = 0%nat) by lia; subst l.
  - apply initial_time; [reflexivity|exact O].
  - apply initial_distance; [reflexivity|exact O].
  - destruct O as [-> | ->]; [apply array_time|apply array_range]; auto; try apply D; apply breguet_segment; auto.
  - destruct O as [-> | ->]; [apply array_time|apply array_range]; auto; try apply D; apply breguet_segment; auto.
  - destruct O as [-> | ->]; [apply array_time|apply array_range]; auto; try apply D; apply breguet_segment; auto.
Qed.
Print Assumptions C42_RangeComp.

(** Three nodes, every segment one mile long, speeds 1, 1 and 7. *)
Definition cruise_example : venv := fun x k =>
  if String.eqb x v_mass then match k with 0%nat => exp 2 | 1%nat => exp 1 | _ => 1 end
  else if String.eqb x v_TAS_cruise then match k with 0%nat => 1 | 1%nat => 1 | _ => 7 end
  else if String.eqb x v_FUEL then match k with 0%nat => - (exp 2 * 3600) | 1%nat => - (exp 1 * 3600) | _ => - (7 * 3600) end
  else 0.

Lemma star_example a b : ln (1 / (1 - (exp a * 1 - exp b * 1) / (exp a * 1))) = a - b.
Proof.
  pose proof (exp_pos a). pose proof (exp_pos b).
  replace (1 / (1 - (exp a * 1 - exp b * 1) / (exp a * 1))) with (exp a / exp b) by (field; lra).
  unfold Rdiv. rewrite <- exp_Ropp, <- exp_plus, ln_exp. ring.
Qed.

Lemma example_segments : breguet_drange cruise_example 0 = 1 /\ breguet_drange cruise_example 1 = 1.
Proof.
  pose proof (exp_pos 1). pose proof (exp_pos 2).
  unfold breguet_drange, breguet_factor, breguet_star, cruise_example, GRAV_ENGLISH_LBM. cbn -[exp ln].
  pose proof (star_example 1 0) as S1. rewrite exp_0 in S1. rewrite star_example, S1.
  split; field; lra.
Qed.

Example C42_witness_RangeComp :
  breguet_dom 3 cruise_example /\ v_run (RangeComp 3) cruise_example v_cruise_range 2 = 2.
Proof.
  pose proof (exp_pos 1). pose proof (exp_pos 2). destruct example_segments as (A & B). split; [split|].
  - intros [|[|[|k]]] K; [| | |lia]; cbn -[exp]; lra.
  - intros [|[|j]] J; [| |lia]; unfold mean_speed; cbn; lra.
  - cbn -[breguet_drange cruise_example]. rewrite A, B. cbn. lra.
Qed.

(** ** Additivity *)
(** The range at a node is the initial range plus the distances of the segments flown, and a cruise may be split at
    any node: the second part, started with the range of the first, gives the same ranges. *)
Definition shifted (n : nat) (r0 : R) (e : venv) : venv := fun x k =>
  if String.eqb x v_cruise_distance_initial then r0
  else if String.eqb x v_cruise_time_initial then e x k else e x (n + k)%nat.

Theorem C42_additive nn n e j k :
  v_run (RangeComp nn) e v_cruise_range k
  = e v_cruise_distance_initial 0%nat + vsum k (fun j => v_run (RangeComp nn) e v_cruise_range (S j) - v_run (RangeComp nn) e v_cruise_range j) /\
  v_run (RangeComp nn) (shifted j (v_run (RangeComp nn) e v_cruise_range j) e) v_cruise_range k
  = v_run (RangeComp n) e v_cruise_range (j + k).
Proof.
  assert (R : forall n e k, v_run (RangeComp n) e v_cruise_range k = e v_cruise_distance_initial 0%nat + vsum k (breguet_drange e)).
  { intros. cbn -[vsum]. unfold cruise_run. change (v_cruise_range =? v_cruise_range) with true. cbv iota zeta.
    destruct k0; [cbn; ring|reflexivity]. }
  split.
  - rewrite R. f_equal. apply vsum_ext. intros i _. rewrite !R. cbn. ring.
  - rewrite !R, vsum_split. change (shifted j _ e v_cruise_distance_initial 0%nat) with (e v_cruise_distance_initial 0%nat + vsum j (breguet_drange e)).
    rewrite Rplus_assoc. f_equal. f_equal. apply vsum_ext. intros i _.
    unfold breguet_drange, breguet_factor, breguet_star.
    change (shifted j ?r e v_mass) with (fun k => e v_mass (j + k)%nat).
    change (shifted j ?r e v_FUEL) with (fun k => e v_FUEL (j + k)%nat).
    change (shifted j ?r e v_TAS_cruise) with (fun k => e v_TAS_cruise (j + k)%nat). cbv beta.
    now rewrite Nat.add_succ_r.
Qed.
Print Assumptions C42_additive.
Example C42_witness_additive :
  v_run (RangeComp 3) cruise_example v_cruise_range 1 = 1 /\
  v_run (RangeComp 2) (shifted 1 1 cruise_example) v_cruise_range 1 = 2.
Proof.
  destruct example_segments as (A & B). split; [cbn -[breguet_drange]; rewrite A; cbn; lra|].
  cbn -[breguet_drange]. replace (breguet_drange (shifted 1 1 cruise_example) 0) with (breguet_drange cruise_example 1) by reflexivity.
  rewrite B. lra.
Qed.

(** Burning fuel at positive speed covers distance. *)
Theorem C42_range_increases nn e k :
  (forall j, (j <= S k)%nat -> 0 < e v_mass j /\ e v_FUEL j < 0 /\ 0 < e v_TAS_cruise j) ->
  e v_mass (S k) < e v_mass k ->
  v_run (RangeComp nn) e v_cruise_range k < v_run (RangeComp nn) e v_cruise_range (S k).
Proof.
  intros P M. destruct (C42_additive nn nn e 0 (S k)) as (R1 & _). destruct (C42_additive nn nn e 0 k) as (R0 & _).
  assert (D : 0 < breguet_drange e k).
  { destruct (P k ltac:(lia)) as (m1 & f1 & u1). destruct (P (S k) ltac:(lia)) as (m2 & f2 & u2).
    unfold breguet_drange, breguet_factor, breguet_star, GRAV_ENGLISH_LBM.
    revert m1 f1 u1 m2 f2 u2 M. generalize (e v_mass k) (e v_mass (S k)) (e v_FUEL k) (e v_FUEL (S k)) (e v_TAS_cruise k) (e v_TAS_cruise (S k)).
    intros a b f g u v m1 f1 u1 m2 f2 u2 M. apply Rmult_lt_0_compat.
    - assert (0 < u * (a * 1) * 3600 / - f) by pos. assert (0 < v * (b * 1) * 3600 / - g) by pos. lra.
    - rewrite <- ln_1. apply ln_increasing; [lra|].
      replace (1 / (1 - (a * 1 - b * 1) / (a * 1))) with (a / b) by (field; lra).
      apply (Rmult_lt_reg_r b); [lra|]. unfold Rdiv. rewrite Rmult_assoc, Rinv_l by lra. lra. }
  cbn -[vsum]. unfold cruise_run. change (v_cruise_range =? v_cruise_range) with true. cbv iota zeta.
  destruct k; cbn -[breguet_drange] in *; lra.
Qed.
Print Assumptions C42_range_increases.
Example C42_witness_range_increases : v_run (RangeComp 3) cruise_example v_cruise_range 1 < v_run (RangeComp 3) cruise_example v_cruise_range 2.
Proof. destruct example_segments as (A & B). cbn -[breguet_drange]. rewrite A, B. cbn. lra. Qed.

(** With the same Breguet factor at all nodes the range is the Breguet formula over the whole cruise, however many nodes
    it is divided into. *)
Theorem C42_breguet_formula nn e A k :
  (forall j, (j <= k)%nat -> 0 < e v_mass j /\ e v_TAS_cruise j * e v_mass j * 3600 / (- e v_FUEL j) = A) ->
  v_run (RangeComp nn) e v_cruise_range k = e v_cruise_distance_initial 0%nat + A * ln (e v_mass 0%nat / e v_mass k).
Proof.
  intro P. assert (S0 : forall i, (i <= k)%nat -> vsum i (breguet_drange e) = A * ln (e v_mass 0%nat / e v_mass i)).
  { induction i as [|i IH]; intro I.
    - destruct (P 0%nat ltac:(lia)) as (M & _). cbn. replace (e v_mass 0%nat / e v_mass 0%nat) with 1 by (field; lra). rewrite ln_1. ring.
    - cbn. rewrite IH by lia. destruct (P 0%nat ltac:(lia)) as (M0 & _). destruct (P i ltac:(lia)) as (M1 & F1). destruct (P (S i) ltac:(lia)) as (M2 & F2).
      unfold breguet_drange, breguet_factor, breguet_star, GRAV_ENGLISH_LBM.
      rewrite !Rmult_1_r. rewrite F1, F2.
      replace (1 / (1 - (e v_mass i - e v_mass (S i)) / e v_mass i)) with (e v_mass i / e v_mass (S i)) by (field; lra).
      replace (e v_mass 0%nat / e v_mass (S i)) with (e v_mass 0%nat / e v_mass i * (e v_mass i / e v_mass (S i))) by (field; lra).
      rewrite ln_mult by (apply Rdiv_lt_0_compat; assumption). field. }
  rewrite <- (S0 k) by lia. cbn -[vsum]. unfold cruise_run. change (v_cruise_range =? v_cruise_range) with true. cbv iota zeta.
  destruct k; [cbn; ring|reflexivity].
Qed.
Print Assumptions C42_breguet_formula.
Example C42_witness_breguet_formula :
  (forall j, (j <= 2)%nat -> 0 < cruise_example v_mass j /\
    cruise_example v_TAS_cruise j * cruise_example v_mass j * 3600 / (- cruise_example v_FUEL j) = 1).
Proof.
  pose proof (exp_pos 1). pose proof (exp_pos 2).
  intros [|[|[|k]]] K; [| | |lia]; cbn -[exp]; (split; [lra|field; lra]).
Qed.

(** ** Cruise time *)
(** At constant speed the cruise time is the sum of the times of the segments. *)
Theorem C42_constant_speed_time nn e V k : V <> 0 -> (forall j, (j <= k)%nat -> e v_TAS_cruise j = V) ->
  v_run (RangeComp nn) e v_cruise_time k
  = e v_cruise_time_initial 0%nat
    + vsum k (fun j => (v_run (RangeComp nn) e v_cruise_range (S j) - v_run (RangeComp nn) e v_cruise_range j) / V).
Proof.
  intros NV C. destruct k as [|k]; [cbn; ring|].
  change (v_run (RangeComp nn) e v_cruise_time (S k)) with (e v_cruise_time_initial 0%nat + vsum (S k) (breguet_drange e) / mean_speed e k).
  f_equal. unfold mean_speed. rewrite !C by lia. replace ((V + V) / 2) with V by field.
  unfold Rdiv. rewrite Rmult_comm, <- vsum_scal. apply vsum_ext. intros j J. rewrite Rmult_comm. f_equal.
  cbn -[vsum]. unfold cruise_run. change (v_cruise_range =? v_cruise_range) with true. cbv iota zeta.
  destruct j; cbn; ring.
Qed.
Print Assumptions C42_constant_speed_time.
Example C42_witness_constant_speed_time : v_run (RangeComp 3) cruise_example v_cruise_time 1 = 1.
Proof. destruct example_segments as (A & B). cbn -[breguet_drange]. rewrite A. unfold mean_speed. cbn. field. Qed.

(** For varying speed it is not: the whole distance is divided by the mean speed of the last segment.  An accelerating
    aircraft can reach a later node at an earlier time. *)
Theorem C42_cruise_time_refuted :
  exists e, breguet_dom 3 e /\ (forall k, (k < 3)%nat -> 0 < e v_TAS_cruise k /\ e v_FUEL k < 0) /\
  e v_mass 2%nat < e v_mass 1%nat < e v_mass 0%nat /\
  v_run (RangeComp 3) e v_cruise_time 2 < v_run (RangeComp 3) e v_cruise_time 1 /\
  v_run (RangeComp 3) e v_cruise_time 2
  <> vsum 2 (fun j => (v_run (RangeComp 3) e v_cruise_range (S j) - v_run (RangeComp 3) e v_cruise_range j) / mean_speed e j).
Proof.
  exists cruise_example. destruct example_segments as (A & B). split; [apply C42_witness_RangeComp|].
  pose proof (exp_pos 1). pose proof (exp_pos 2). split; [|split].
  - intros [|[|[|k]]] K; [| | |lia]; cbn -[exp]; lra.
  - cbn -[exp]. split; [rewrite <- exp_0 at 1|]; apply exp_increasing; lra.
  - split; cbn -[breguet_drange]; rewrite A, ?B; unfold mean_speed; cbn; lra.
Qed.
Print Assumptions C42_cruise_time_refuted.

(** ** Electric cruise *)
Definition electric_dom (nn : nat) (e : venv) : Prop :=
  (forall k, (k < nn)%nat -> e v_POWER k <> 0) /\ (forall j, (S j < nn)%nat -> mean_speed e j <> 0).

Lemma electric_segment nn e i : electric_dom nn e -> i = v_POWER \/ i = v_ENERGY \/ i = v_TAS_cruise ->
  segment_exact nn electric_drange electric_first electric_second e i.
Proof.
  intros (P & _) I j l J L. pose proof (P j ltac:(lia)) as P1. pose proof (P (S j) ltac:(lia)) as P2. clear P.
  destruct I as [-> | [-> | ->]]; at_node j l.
  all: unfold electric_drange, electric_factor, electric_first, electric_second.
  all: upd_simpl.
  all: try apply const_derive.
  all: revert P1 P2; generalize (e v_POWER j) (e v_POWER (S j)) (e v_ENERGY j) (e v_ENERGY (S j)) (e v_TAS_cruise j) (e v_TAS_cruise (S j));
    intros p1 p2 e1 e2 u1 u2 P1 P2.
  all: auto_derive; [repeat split; try assumption; lra|].
  all: field; repeat split; lra.
Qed.

Theorem C42_ElectricRangeComp nn : vexact (ElectricRangeComp nn) (electric_dom nn).
Proof.
  intros e D o k (n & On & K) i l (m & Im & L).
  assert (K' : (k < nn)%nat /\ (o = v_cruise_time \/ o = v_cruise_range)).
  { cbn in On. destruct On as [E|[E|[]]]; inversion E; subst; auto. }
  clear On K. destruct K' as (K & O). cbn in Im.
  destruct Im as [E|[E|[E|[E|[E|[]]]]]]; inversion E; subst i m; clear E.
  1,2: assert (l = 0%nat) by lia; subst l.
  - apply initial_time; [reflexivity|exact O].
  - apply initial_distance; [reflexivity|exact O].
  - destruct O as [-> | ->]; [apply array_time|apply array_range]; auto; try apply D; apply electric_segment; auto.
  - destruct O as [-> | ->]; [apply array_time|apply array_range]; auto; try apply D; apply electric_segment; auto.
  - destruct O as [-> | ->]; [apply array_time|apply array_range]; auto; try apply D; apply electric_segment; auto.
Qed.
Print Assumptions C42_ElectricRangeComp.
Example C42_witness_ElectricRangeComp :
  electric_dom 3 (fun _ k => INR k + 1) /\ v_run (ElectricRangeComp 3) (fun _ k => INR k + 1) v_cruise_range 2 = 7201.
Proof.
  split; [split|].
  - intros k _. pose proof (pos_INR k). lra.
  - intros j _. unfold mean_speed. rewrite S_INR. pose proof (pos_INR j). lra.
  - cbn -[INR]. unfold electric_drange, electric_factor. cbn. field.
Qed.

(** The sum over the segments telescopes: only the first and the last node count.  At constant speed and power the range
    is the speed times the time in which that power uses the energy. *)
Theorem C42_electric_telescopes nn e k :
  v_run (ElectricRangeComp nn) e v_cruise_range k
  = e v_cruise_distance_initial 0%nat
    + (e v_TAS_cruise k * e v_ENERGY k * 3600 / e v_POWER k - e v_TAS_cruise 0%nat * e v_ENERGY 0%nat * 3600 / e v_POWER 0%nat).
Proof.
  assert (S0 : vsum k (electric_drange e) = electric_factor e k - electric_factor e 0).
  { induction k; cbn; [ring|]. rewrite IHk. unfold electric_drange. ring. }
  cbn -[vsum]. unfold cruise_run. change (v_cruise_range =? v_cruise_range) with true. cbv iota zeta.
  unfold electric_factor in S0. destruct k; [cbn; ring|rewrite S0; reflexivity].
Qed.
Print Assumptions C42_electric_telescopes.
Example C42_witness_electric_telescopes : v_run (ElectricRangeComp 5) (fun _ k => INR k + 1) v_cruise_range 3 = 10801.
Proof. rewrite C42_electric_telescopes. cbn. field. Qed.

(** ** Simple cruise *)
(** Every partial is exact except those of the distance at later nodes with respect to the initial distance. *)
Theorem C42_DistanceComp nn e o k i l :
  entry (v_outs (DistanceComp nn)) o k -> entry (v_ins (DistanceComp nn)) i l ->
  ~ (i = v_cruise_distance_initial /\ k <> 0%nat) ->
  is_derive (fun t => v_run (DistanceComp nn) (vupd e i l t) o k) (e i l) (v_jac (DistanceComp nn) e o k i l).
Proof.
  intros (n & On & K) (m & Im & L) N. cbn in On. destruct On as [E|[]]. inversion E; subst o n; clear E.
  cbn in Im. destruct Im as [E|[E|[E|[]]]]; inversion E; subst i m; clear E; cbn [v_run v_jac DistanceComp]; unfold DistanceComp_jac.
  - repeat match goal with |- context [String.eqb ?a ?b] => let c := eval compute in (String.eqb a b) in change (String.eqb a b) with c end; cbv iota zeta.
    destruct (Nat.eq_dec k 0) as [->|K0].
    + destruct (Nat.eq_dec l 0) as [->|L0].
      * rewrite (sparse_only _ _ _ _ _ _ 0%nat); try lia; try (destruct (Nat.ltb_spec 0 nn); lia).
        2: { intros q Q. destruct (Nat.ltb_spec q nn); lia. }
        cbn. upd_simpl. auto_derive; [trivial|ring].
      * rewrite sparse_none by (intros q Q; destruct (Nat.ltb_spec q nn); lia).
        upd_simpl. apply const_derive.
    + destruct (Nat.eq_dec l k) as [->|LK].
      * rewrite (sparse_only _ _ _ _ _ _ k); try lia; try (destruct (Nat.ltb_spec k nn); lia).
        2: { intros q Q. destruct (Nat.ltb_spec q nn); lia. }
        destruct (Nat.eqb_spec k 0); [lia|]. destruct (Nat.ltb_spec k nn); [|lia].
        upd_simpl. auto_derive; [trivial|ring].
      * destruct (Nat.eq_dec l 0) as [->|L0].
        -- rewrite (sparse_only _ _ _ _ _ _ (nn + k - 1)%nat); try lia; try (destruct (Nat.ltb_spec (nn + k - 1) nn); lia).
           2: { intros q Q. destruct (Nat.ltb_spec q nn); lia. }
           destruct (Nat.eqb_spec (nn + k - 1) 0); [lia|]. destruct (Nat.ltb_spec (nn + k - 1) nn); [lia|].
           replace (nn + k - 1 - nn + 1)%nat with k by lia. upd_simpl. auto_derive; [trivial|ring].
        -- rewrite sparse_none by (intros q Q; destruct (Nat.ltb_spec q nn); lia).
           upd_simpl. apply const_derive.
  - assert (l = 0%nat) by lia. subst l. destruct (Nat.eq_dec k 0) as [->|K0]; [|exfalso; apply N; auto].
    change (v_cruise_distance_initial =? v_TAS_cruise) with false. change (v_cruise_distance_initial =? v_cruise_distance_initial) with true.
    cbv iota zeta. rewrite (sparse_only _ _ _ _ _ _ 0%nat) by lia. upd_simpl. auto_derive; [trivial|ring].
  - change (v_TAS_cruise =? v_TAS_cruise) with true. cbv iota zeta. destruct (Nat.eq_dec l k) as [->|LK].
    + rewrite (sparse_only _ _ _ _ _ _ k) by (try lia; intros; lia). upd_simpl. auto_derive; [trivial|ring].
    + rewrite sparse_none by (intros; lia). upd_simpl. apply const_derive.
Qed.
Print Assumptions C42_DistanceComp.
Example C42_witness_DistanceComp : v_run (DistanceComp 3) (fun _ k => INR k + 1) v_DISTANCE 2 = 7.
Proof. cbn. ring. Qed.

(** With two or more nodes the declared Jacobian says that the distance at the second node does not depend on the
    distance at the start of the cruise.  It does, with derivative one. *)
Theorem C42_DistanceComp_refuted nn e : (2 <= nn)%nat ->
  v_jac (DistanceComp nn) e v_DISTANCE 1 v_cruise_distance_initial 0 = 0 /\
  is_derive (fun t => v_run (DistanceComp nn) (vupd e v_cruise_distance_initial 0 t) v_DISTANCE 1) (e v_cruise_distance_initial 0%nat) 1.
Proof.
  intro N. split.
  - cbn [v_jac DistanceComp]. unfold DistanceComp_jac. change (v_cruise_distance_initial =? v_TAS_cruise) with false.
    change (v_cruise_distance_initial =? v_cruise_distance_initial) with true. cbv iota zeta. apply sparse_none. lia.
  - cbn [v_run DistanceComp]. upd_simpl. auto_derive; [trivial|ring].
Qed.
Print Assumptions C42_DistanceComp_refuted.

(** ** Speed constraints *)
Theorem C42_SpeedConstraints nn EAS_target mach_target : vexact (SpeedConstraints nn EAS_target mach_target) (fun _ => True).
Proof.
  intros e _ o p (n & On & P) i l (m & Im & L). cbn in On. destruct On as [E|[]]. inversion E; subst o n; clear E.
  pose proof (Nat.div_mod p 2 ltac:(lia)) as DM. pose proof (Nat.mod_upper_bound p 2 ltac:(lia)) as UB.
  remember (p / 2)%nat as k. remember (p mod 2)%nat as b.
  assert (Kn : (k < nn)%nat) by lia.
  cbn in Im. destruct Im as [E|[E|[]]]; inversion E; subst i m; clear E; cbn [v_run v_jac SpeedConstraints]; rewrite <- Heqk, <- Heqb.
  all: repeat match goal with |- context [String.eqb ?a ?b] => let c := eval compute in (String.eqb a b) in change (String.eqb a b) with c end; cbv iota.
  all: destruct (Nat.eqb_spec b 0) as [B|B]; destruct (Nat.eq_dec l k) as [->|LK].
  all: try (rewrite sparse_none by (intros; lia); upd_simpl; apply const_derive).
  all: rewrite (sparse_only _ _ _ _ _ _ k) by (try lia; intros; lia); upd_simpl; auto_derive; [trivial|ring].
Qed.
Print Assumptions C42_SpeedConstraints.
Example C42_witness_SpeedConstraints : v_run (SpeedConstraints 2 250 (8 / 10)) (fun x k => if String.eqb x v_EAS then 250 else 1) v_speed_constraint 3 = 50.
Proof. cbn. field. Qed.

(** ** Least squares *)
(** The residuals of the coefficients vanish exactly at the cubics that minimise the sum of the squared errors. *)
Definition squared_error (n : nat) (X Y : nat -> R) (A : cubic) : R := vsum n (fun j => (cubic_at A (X j) - Y j) ^ 2).
Definition moved (A B : cubic) (s : R) : cubic :=
  {| a0 := a0 A + s * a0 B; a1 := a1 A + s * a1 B; a2 := a2 A + s * a2 B; a3 := a3 A + s * a3 B |}.

Lemma error_expand n X Y A B s :
  squared_error n X Y (moved A B s)
  = squared_error n X Y A
    + s * (fit_residual n X Y A 0 * a0 B + fit_residual n X Y A 1 * a1 B + fit_residual n X Y A 2 * a2 B + fit_residual n X Y A 3 * a3 B)
    + s ^ 2 * vsum n (fun j => cubic_at B (X j) ^ 2).
Proof.
  unfold squared_error, fit_residual. induction n; cbn [vsum]; [ring|]. rewrite IHn. unfold cubic_at. cbn [a0 a1 a2 a3 moved]. ring.
Qed.

Lemma quadratic_flat b c : (forall s, 0 <= s * b + s ^ 2 * c) -> b = 0.
Proof.
  intro H. destruct (Rle_dec c 0) as [C|C].
  - pose proof (H 1). pose proof (H (-1)). nra.
  - assert (C0 : 0 < c) by lra. pose proof (H (- b / (2 * c))) as Q.
    replace (- b / (2 * c) * b + (- b / (2 * c)) ^ 2 * c) with (- (b ^ 2 / (4 * c))) in Q by (field; lra).
    assert (0 <= b ^ 2 / (4 * c)) by (apply Rdiv_le_0_compat; nra).
    assert (Z : b ^ 2 / (4 * c) = 0) by lra. assert (b ^ 2 = 0).
    { replace (b ^ 2) with (b ^ 2 / (4 * c) * (4 * c)) by (field; lra). rewrite Z. ring. }
    nra.
Qed.

Theorem C54_least_squares n X Y A :
  (forall p, (p < 4)%nat -> fit_residual n X Y A p = 0) <-> (forall B, squared_error n X Y A <= squared_error n X Y B).
Proof.
  split.
  - intros Z B. set (D := {| a0 := a0 B - a0 A; a1 := a1 B - a1 A; a2 := a2 B - a2 A; a3 := a3 B - a3 A |}).
    replace B with (moved A D 1) by (destruct A, B; unfold moved, D; cbn; f_equal; ring).
    rewrite error_expand, !Z by lia. assert (0 <= vsum n (fun j => cubic_at D (X j) ^ 2)) by (apply vsum_nonneg; intros; apply pow2_ge_0). lra.
  - intros M p P.
    assert (G : forall B, fit_residual n X Y A 0 * a0 B + fit_residual n X Y A 1 * a1 B + fit_residual n X Y A 2 * a2 B + fit_residual n X Y A 3 * a3 B = 0).
    { intro B. apply (quadratic_flat _ (vsum n (fun j => cubic_at B (X j) ^ 2))). intro s.
      pose proof (M (moved A B s)) as Q. rewrite error_expand in Q. lra. }
    destruct p as [|[|[|[|p]]]]; [| | | |lia].
    + specialize (G {| a0 := 1; a1 := 0; a2 := 0; a3 := 0 |}). cbn [a0 a1 a2 a3] in G. lra.
    + specialize (G {| a0 := 0; a1 := 1; a2 := 0; a3 := 0 |}). cbn [a0 a1 a2 a3] in G. lra.
    + specialize (G {| a0 := 0; a1 := 0; a2 := 1; a3 := 0 |}). cbn [a0 a1 a2 a3] in G. lra.
    + specialize (G {| a0 := 0; a1 := 0; a2 := 0; a3 := 1 |}). cbn [a0 a1 a2 a3] in G. lra.
Qed.
Print Assumptions C54_least_squares.
Example C54_witness_least_squares :
  let A := {| a0 := 1; a1 := 0; a2 := 0; a3 := 0 |} in
  forall p, (p < 4)%nat -> fit_residual 2 (fun _ => 5) (fun j => INR j * 2) A p = 0.
Proof. intros A p _. unfold fit_residual, A, cubic_at. cbn -[pow]. ring. Qed.

(** Control points on a cubic are fitted by it, and the fitted heights are the heights of the residual equations. *)
Theorem C54_interpolates n X Y A :
  (forall j, (j < n)%nat -> Y j = cubic_at A (X j)) ->
  (forall p, fit_residual n X Y A p = 0) /\
  (forall B, (forall p, (p < 4)%nat -> fit_residual n X Y B p = 0) -> forall j, (j < n)%nat -> cubic_at B (X j) = Y j).
Proof.
  intro I. split.
  - intro p. apply vsum_zero. intros j J. rewrite (I j J). ring.
  - intros B Z. apply (proj1 (C54_least_squares n X Y B)) with (B := A) in Z.
    assert (E : squared_error n X Y A = 0) by (apply vsum_zero; intros j J; rewrite (I j J); ring). rewrite E in Z.
    assert (T : forall m, (m <= n)%nat -> 0 <= squared_error m X Y B) by (intros; apply vsum_nonneg; intros; apply pow2_ge_0).
    clear E I. induction n; intros j J; [lia|]. unfold squared_error in Z. cbn in Z.
    pose proof (T n ltac:(lia)) as T0. unfold squared_error in T0. pose proof (pow2_ge_0 (cubic_at B (X n) - Y n)).
    destruct (Nat.eq_dec j n) as [->|N]; [cbn in *; nra|]. apply IHn; [unfold squared_error; cbn in *; lra|intros; apply T; lia|lia].
Qed.
Print Assumptions C54_interpolates.
Example C54_witness_interpolates : cubic_at {| a0 := 1; a1 := 1; a2 := 0; a3 := 2 |} 3 = 58.
Proof. unfold cubic_at. cbn. ring. Qed.
