(** Proofs about the input preprocessors. *)
From Coq Require Import QArith Lqa Lia ZArith.
From Verif Require Import Base PreModel.
Open Scope nat_scope.

(** ** Fuel capacities *)
(** a tank capacity [x] that the user's input allows: the given one, or any non-negative one if none was given *)
Definition allows (o : option Q) (x : Q) : Prop := match o with Some q => (x == q)%Q | None => (0 <= x)%Q end.

Lemma Qle_false a b : Qle_bool a b = false -> (b < a)%Q.
Proof.
  intro H. apply Qnot_le_lt. intro L. apply Qle_bool_iff in L. congruence.
Qed.
Lemma Qeq_false a b : Qeq_bool a b = false -> ~ (a == b)%Q.
Proof. intros H E. apply Qeq_bool_iff in E. congruence. Qed.

Lemma fuel_flops_total c t : fc_total c = Some t ->
  (is_ok (preprocess_fuel_capacities (Some FLOPS) c) = true <->
   exists w f a, allows (fc_wing c) w /\ allows (fc_fus c) f /\ allows (fc_aux c) a /\ (w + f + a == t)%Q) /\
  (forall c', preprocess_fuel_capacities (Some FLOPS) c = Ok c' -> c' = c) /\
  (forall e, preprocess_fuel_capacities (Some FLOPS) c = Err e -> e = UserWarning).
Proof.
  destruct c as [ct cw cf ca]; simpl; intros ->.
  unfold preprocess_fuel_capacities. cbn [fc_total].
  destruct cw as [w|], cf as [f|], ca as [a|]; unfold given, qsum; simpl;
  match goal with
  | |- context [Qeq_bool ?x ?y] => destruct (Qeq_bool x y) eqn:E; [apply Qeq_bool_iff in E|apply Qeq_false in E]
  | _ => idtac
  end;
  match goal with
  | |- context [negb (Qle_bool ?x ?y)] => destruct (Qle_bool x y) eqn:L; [apply Qle_bool_iff in L|apply Qle_false in L]
  | _ => idtac
  end; simpl; (split; [|split; intros; congruence]); (split; intro H; try discriminate; try reflexivity).
  all: try (destruct H as (x & y & z & X & Y & Z & S); exfalso; try apply E; lra).
  - exists w, f, a. repeat split; lra.
  - exists w, f, (t - w - f)%Q. repeat split; lra.
  - exists w, (t - w - a)%Q, a. repeat split; lra.
  - exists w, (t - w)%Q, 0%Q. repeat split; lra.
  - exists (t - f - a)%Q, f, a. repeat split; lra.
  - exists (t - f)%Q, f, 0%Q. repeat split; lra.
  - exists (t - a)%Q, 0%Q, a. repeat split; lra.
  - exists t, 0%Q, 0%Q. repeat split; lra.
Qed.

Lemma fuel_idempotent m c c' : preprocess_fuel_capacities m c = Ok c' -> preprocess_fuel_capacities m c' = Ok c'.
Proof.
  destruct m as [[]|]; simpl; try congruence.
  destruct c as [[t|] w f a]; cbn [fc_total fc_wing fc_fus fc_aux].
  - destruct (_ && _) eqn:E1; [discriminate|]. destruct (_ && negb (Qle_bool _ _)) eqn:E2; [discriminate|].
    intros [= <-]. cbn [fc_total]. now rewrite E1, E2.
  - intros [= <-]. reflexivity.
Qed.

(** ** Passengers *)
Lemma resolve_total p : (0 <= first' p)%Z -> (0 <= business' p)%Z -> (0 <= economy' p)%Z ->
  total' (resolve p) = class_sum (resolve p).
Proof.
  intros. unfold resolve. destruct (Z.eqb_spec (total' p) (class_sum p)); [assumption|].
  destruct (Z.eqb_spec (class_sum p) 0) as [E|E]; [|reflexivity].
  unfold class_sum in *; simpl in *. lia.
Qed.

Lemma resolve_keeps p :
  first' (resolve p) = first' p /\ business' (resolve p) = business' p /\
  (class_sum p <> 0%Z -> economy' (resolve p) = economy' p /\ total' (resolve p) = class_sum p) /\
  (class_sum p = 0%Z -> total' (resolve p) = total' p).
Proof.
  unfold resolve. destruct (Z.eqb_spec (total' p) (class_sum p)) as [E|E].
  - repeat split; auto.
  - destruct (Z.eqb_spec (class_sum p) 0) as [S|S]; simpl; repeat split; auto; contradiction.
Qed.

Definition pax_nonneg (p : pax_in) : Prop :=
  (0 <= odflt 0 (first_ p))%Z /\ (0 <= odflt 0 (business p))%Z /\ (0 <= odflt 0 (economy p))%Z.

Lemma flops_consistent v d m : pax_nonneg d -> pax_nonneg m ->
  let '((d', m'), _) := preprocess_pax_flops v d m in
  (total' d' = first' d' + business' d' + economy' d')%Z /\ (total' m' = first' m' + business' m' + economy' m')%Z.
Proof.
  intros (D1 & D2 & D3) (M1 & M2 & M3). unfold preprocess_pax_flops.
  split; apply resolve_total; destruct (_ && _); unfold fill; simpl; auto.
Qed.

(** the user's input for one group after "the other group is used if this one is absent" *)
Definition effective (own other : pax_in) : pax_in := if provided own then own else other.

Lemma not_provided_fill p : provided p = false -> p = Build_pax_in None None None None.
Proof. destruct p as [[|] [|] [|] [|]]; simpl; intro; try discriminate; reflexivity. Qed.

Lemma flops_effective v d m :
  fst (preprocess_pax_flops v d m) = (resolve (fill (effective d m)), resolve (fill (effective m d))).
Proof.
  unfold preprocess_pax_flops, effective. cbn [fst].
  destruct (provided d) eqn:D, (provided m) eqn:M; simpl; try reflexivity.
  apply not_provided_fill in D, M. subst. reflexivity.
Qed.

Lemma flops_fields v d m d' m' : fst (preprocess_pax_flops v d m) = (d', m') ->
  forall own other out, (own, other, out) = (d, m, d') \/ (own, other, out) = (m, d, m') ->
  let e := effective own other in
  let s := (odflt 0 (first_ e) + odflt 0 (business e) + odflt 0 (economy e))%Z in
  first' out = odflt 0%Z (first_ e) /\ business' out = odflt 0%Z (business e) /\
  (s <> 0%Z -> economy' out = odflt 0%Z (economy e) /\ total' out = s) /\
  (s = 0%Z -> total' out = odflt 0%Z (total e)).
Proof.
  rewrite flops_effective. intros [= <- <-] own other out [[= -> -> ->]|[= -> -> ->]]; cbv zeta;
  apply (resolve_keeps (fill _)).
Qed.

Lemma in_when_at_least b v l w w' : In w (when b (at_least v l w')) <-> b = true /\ (l <= v)%Z /\ w = w'.
Proof.
  unfold when, at_least. destruct b, (Z.leb_spec l v); simpl; split; intuition (try congruence; try lia).
Qed.

Ltac inw := repeat rewrite in_app_iff.

Lemma when_if b (c : bool) x y : when b (if c then x else y) = when (b && c) x ++ when (b && negb c) y.
Proof. destruct b, c; simpl; rewrite ?app_nil_r; reflexivity. Qed.
Lemma when_nil b : when b [] = [].
Proof. destruct b; reflexivity. Qed.
Lemma when_when b c x : when b (when c x) = when (b && c) x.
Proof. destruct b, c; reflexivity. Qed.

Lemma warnings_iff v d m :
  let '((d', m'), ws) := preprocess_pax_flops v d m in
  (In W_more_than_design ws <-> (2 <= v)%Z /\ (total' d' < total' m')%Z) /\
  (In W_more_first ws <-> (2 <= v)%Z /\ (first' d' < first' m')%Z) /\
  (In W_more_business ws <-> (2 <= v)%Z /\ (business' d' < business' m')%Z) /\
  (In W_more_economy ws <-> (2 <= v)%Z /\ (economy' d' < economy' m')%Z) /\
  (In W_mission_total_overridden ws <-> (1 <= v)%Z /\ exists n, total m = Some n /\ n <> total' m') /\
  ~ In W_design_total_overridden ws.
Proof.
  unfold preprocess_pax_flops. cbv beta iota zeta.
  set (d1 := if provided m && negb (provided d) then fill m else fill d).
  set (m1 := if provided d && negb (provided m) then fill d else fill m).
  rewrite !when_if, !when_nil, !when_when.
  rewrite !in_app_iff, !in_when_at_least, !Z.ltb_lt. cbn [In].
  repeat match goal with |- _ /\ _ => split end.
  1-4: split; [intuition (try congruence; discriminate)|intros [? ?]; tauto].
  - split.
    + intro H. assert (K : negb (total' m1 =? class_sum m1)%Z && negb (class_sum m1 =? 0)%Z && isSome (total m) = true /\ (1 <= v)%Z)
        by (intuition (try congruence; discriminate)).
      clear H. destruct K as [K V]. split; [assumption|].
      apply andb_true_iff in K as [K T]. apply andb_true_iff in K as [K0 K1].
      destruct (total m) as [n|] eqn:E; [|discriminate]. exists n. split; [reflexivity|].
      apply negb_true_iff, Z.eqb_neq in K0, K1. destruct (resolve_keeps m1) as (_ & _ & H & _).
      destruct (H K1) as [_ ->]. intros ->. apply K0.
      unfold m1. replace (provided m) with true by (unfold provided; rewrite E; reflexivity).
      rewrite andb_false_r. unfold fill at 1. simpl. rewrite E. simpl. unfold m1.
      replace (provided m) with true by (unfold provided; rewrite E; reflexivity). now rewrite andb_false_r.
    + intros (V & n & E & N).
      assert (P : provided m = true) by (unfold provided; rewrite E; reflexivity).
      assert (T : total' m1 = n) by (unfold m1; rewrite P, andb_false_r; unfold fill; simpl; now rewrite E).
      assert (K : negb (total' m1 =? class_sum m1)%Z && negb (class_sum m1 =? 0)%Z && isSome (total m) = true); [|tauto].
      rewrite E. cbn [isSome]. rewrite andb_true_r, andb_true_iff, !negb_true_iff, !Z.eqb_neq.
      revert N. unfold resolve. destruct (Z.eqb_spec (total' m1) (class_sum m1)) as [Q|Q]; [congruence|].
      destruct (Z.eqb_spec (class_sum m1) 0) as [Z|Z]; [cbn [total']; congruence|]. auto.
  - intuition (try congruence; discriminate).
Qed.

(** ** Cargo *)
Definition cargo_given (c : cargo_in) (o : cargo_out) : Prop :=
  (forall q, max c = Some q -> max' o = q) /\ (forall q, des c = Some q -> des' o = q).

Lemma cargo_ok sizing c o : preprocess_cargo sizing c = Ok o ->
  (flown' o <= max' o)%Q /\ (des' o <= max' o)%Q /\ cargo_given c o.
Proof.
  unfold preprocess_cargo. destruct (Qle_bool (flown' _) _) eqn:E1; [|discriminate].
  destruct (Qle_bool (des' _) _) eqn:E2; [|discriminate]. simpl. intros [= <-].
  apply Qle_bool_iff in E1, E2. repeat split; auto.
  all: destruct c as [[f|] [m|] [d|]]; simpl; congruence.
Qed.

Lemma cargo_err sizing c e : preprocess_cargo sizing c = Err e -> e = UserWarning.
Proof. unfold preprocess_cargo. destruct (negb _); [congruence|]. destruct (negb _); congruence. Qed.

(** ** Crew *)
Lemma attendants_mono p q : (p <= q)%Z -> (attendants_for p <= attendants_for q)%Z.
Proof.
  intro. unfold attendants_for.
  destruct (Z.ltb_spec 0 p), (Z.ltb_spec 0 q), (Z.ltb_spec p 51), (Z.ltb_spec q 51); try lia.
  - pose proof (Z.div_pos q 40). lia.
  - pose proof (Z.div_le_mono p q 40). lia.
  - pose proof (Z.div_pos q 40). lia.
Qed.
Lemma galley_mono p q : (p <= q)%Z -> (galley_for p <= galley_for q)%Z.
Proof.
  intro. unfold galley_for. destruct (Z.ltb_spec 150 p), (Z.ltb_spec 150 q); try lia.
  - pose proof (Z.div_le_mono p q 250). lia.
  - pose proof (Z.div_pos q 250). lia.
Qed.
Lemma flight_crew_mono p q : (p <= q)%Z -> (flight_crew_for p <= flight_crew_for q)%Z.
Proof. intro. unfold flight_crew_for. destruct (Z.ltb_spec p 151), (Z.ltb_spec q 151); lia. Qed.

Lemma attendants_ratio p : (0 < p)%Z ->
  (p <= 50 * attendants_for p)%Z /\ (1 <= attendants_for p)%Z /\
  ((51 <= p)%Z -> (40 * (attendants_for p - 1) <= p < 40 * attendants_for p)%Z).
Proof.
  intro P. unfold attendants_for. destruct (Z.ltb_spec 0 p); [|lia]. destruct (Z.ltb_spec p 51); [lia|].
  pose proof (Z.div_mod p 40). pose proof (Z.mod_pos_bound p 40). pose proof (Z.div_pos p 40). lia.
Qed.
Lemma galley_ratio p : (150 < p)%Z -> (250 * (galley_for p - 1) <= p < 250 * galley_for p)%Z /\ (1 <= galley_for p)%Z.
Proof.
  intro P. unfold galley_for. destruct (Z.ltb_spec 150 p); [|lia].
  pose proof (Z.div_mod p 250). pose proof (Z.mod_pos_bound p 250). pose proof (Z.div_pos p 250). lia.
Qed.

(** ** Engine counts *)
(** the inputs that no branch handles: exactly one engine without a mount, none on the wing, some on the fuselage *)
Definition unhandled (n f w : Z) : Prop := w = 0%Z /\ (0 < f)%Z /\ n = (f + 1)%Z.

Lemma reconcile_exact n f w n' f' w' : (0 <= n)%Z -> (0 <= f)%Z -> (0 <= w)%Z -> reconcile n f w = (n', f', w') ->
  ((n' = f' + w')%Z <-> ~ unhandled n f w) /\
  (unhandled n f w -> (n' = f' + w' + 1)%Z) /\
  n' = Z.max n (f + w) /\ (f <= f')%Z /\ (w <= w')%Z.
Proof.
  intros N F W. unfold reconcile, unhandled.
  repeat match goal with
  | |- context [Z.eqb ?a ?b] => destruct (Z.eqb_spec a b); simpl
  | |- context [Z.ltb ?a ?b] => destruct (Z.ltb_spec a b); simpl
  end; intros [= <- <- <-]; lia.
Qed.

Lemma reconcile_consistent_kept n f w : (0 <= f)%Z -> (0 <= w)%Z -> (f + w = n)%Z -> (0 < n)%Z -> reconcile n f w = (n, f, w).
Proof.
  intros. unfold reconcile.
  repeat match goal with
  | |- context [Z.eqb ?a ?b] => destruct (Z.eqb_spec a b); simpl
  | |- context [Z.ltb ?a ?b] => destruct (Z.ltb_spec a b); simpl
  end; try lia; reflexivity.
Qed.

Lemma reconcile_idempotent n f w n' f' w' : (0 <= n)%Z -> (0 <= f)%Z -> (0 <= w)%Z ->
  reconcile n f w = (n', f', w') -> reconcile n' f' w' = (n', f', w').
Proof.
  intros N F W. unfold reconcile.
  repeat match goal with
  | |- context [Z.eqb ?a ?b] => destruct (Z.eqb_spec a b); simpl
  | |- context [Z.ltb ?a ?b] => destruct (Z.ltb_spec a b); simpl
  end; intros [= <- <- <-];
  repeat match goal with
  | |- context [Z.eqb ?a ?b] => destruct (Z.eqb_spec a b); simpl
  | |- context [Z.ltb ?a ?b] => destruct (Z.ltb_spec a b); simpl
  end; try lia; try reflexivity; repeat f_equal; lia.
Qed.

Lemma reconcile_all_nth k : forall n f w r, reconcile_all k n f w = Ok r ->
  length r = k /\
  forall i, i < k -> exists a b c, nth_error n i = Some a /\ nth_error f i = Some b /\ nth_error w i = Some c /\
                                   nth_error r i = Some (reconcile a b c).
Proof.
  induction k as [|k IH]; intros n f w r; simpl.
  - intros [= <-]. split; [reflexivity|]. intros; lia.
  - destruct n as [|a n]; [discriminate|]. destruct f as [|b f]; [discriminate|]. destruct w as [|c w]; [discriminate|].
    destruct (reconcile_all k n f w) as [r'|] eqn:E; simpl; [|discriminate]. intros [= <-].
    destruct (IH _ _ _ _ E) as [L H]. split; [simpl; lia|]. intros [|i] I; simpl.
    + exists a, b, c. auto.
    + apply H. lia.
Qed.

Lemma reconcile_all_ok k : forall n f w,
  is_ok (reconcile_all k n f w) = true <-> k <= length n /\ k <= length f /\ k <= length w.
Proof.
  induction k as [|k IH]; intros n f w; simpl; [split; [lia|reflexivity]|].
  destruct n as [|a n], f as [|b f], w as [|c w]; simpl; try (split; [discriminate|lia]).
  specialize (IH n f w). destruct (reconcile_all k n f w); simpl in *; split; intro H; try reflexivity; try discriminate.
  - destruct IH as [IH _]. specialize (IH eq_refl). lia.
  - exfalso. enough (false = true) by discriminate. apply IH. lia.
Qed.

Definition unhandledb (n f w : Z) : bool := (w =? 0)%Z && (0 <? f)%Z && (n =? f + 1)%Z.
Lemma unhandledb_iff n f w : unhandledb n f w = true <-> unhandled n f w.
Proof. unfold unhandledb, unhandled. rewrite !andb_true_iff, !Z.eqb_eq, Z.ltb_lt. tauto. Qed.

Fixpoint zip3 (n f w : list Z) : list (Z * Z * Z) :=
  match n, f, w with a :: n', b :: f', c :: w' => (a, b, c) :: zip3 n' f' w' | _, _, _ => [] end.

Lemma totals k : forall n f w r, reconcile_all k n f w = Ok r ->
  Forall (fun z => 0 <= z)%Z n -> Forall (fun z => 0 <= z)%Z f -> Forall (fun z => 0 <= z)%Z w ->
  (zsum (map (fun t => fst (fst t)) r) =
   zsum (map (fun t => snd (fst t)) r) + zsum (map snd r)
   + Z.of_nat (length (filter (fun t => unhandledb (fst (fst t)) (snd (fst t)) (snd t)) (firstn k (zip3 n f w)))))%Z.
Proof.
  induction k as [|k IH]; intros n f w r; simpl.
  - intros [= <-] _ _ _. reflexivity.
  - destruct n as [|a n]; [discriminate|]. destruct f as [|b f]; [discriminate|]. destruct w as [|c w]; [discriminate|].
    destruct (reconcile_all k n f w) as [r'|] eqn:E; simpl; [|discriminate]. intros [= <-] N F W.
    inversion N; inversion F; inversion W; subst. specialize (IH _ _ _ _ E).
    destruct (reconcile a b c) as [[a' b'] c'] eqn:R.
    destruct (reconcile_exact a b c a' b' c' H1 H5 H9 R) as (X & Y & _).
    destruct (unhandledb a b c) eqn:U; simpl.
    + apply unhandledb_iff in U. specialize (Y U). rewrite IH by assumption. lia.
    + assert (~ unhandled a b c) by (rewrite <- unhandledb_iff; congruence).
      apply X in H. rewrite IH by assumption. lia.
Qed.

(** ** Vectorisation *)
Section Vec.
  Context {A : Type}.
  Implicit Types (av dflt : pval A) (engines : list (option (pval A))).

  Lemma assemble_nth_gen (dflt : pval A) (av : option (pval A)) engines : forall i j,
    av <> Some (PL []) ->
    length (assemble false dflt av i engines) = length engines /\
    nth_error (assemble false dflt av i engines) j =
      match nth_error engines j with
      | None => None
      | Some own => Some (match own, av with
                          | Some v, _ => v
                          | None, None => dflt
                          | None, Some (PS a) => PS a
                          | None, Some (PL [a]) => PS a
                          | None, Some (PL l) => match nth_error l (i + j) with Some a => PS a | None => dflt end
                          end)
      end.
  Proof.
    induction engines as [|e r IH]; intros i j N; [destruct j; auto|].
    cbn [assemble].
    assert (C : exists x, contribution false dflt av i e = [x] /\
                x = match e, av with
                    | Some v, _ => v
                    | None, None => dflt
                    | None, Some (PS a) => PS a
                    | None, Some (PL [a]) => PS a
                    | None, Some (PL l) => match nth_error l i with Some a => PS a | None => dflt end
                    end).
    { destruct e as [[a|l]|]; simpl; [eauto|eauto|].
      destruct av as [[a|l]|]; [eauto| |eauto].
      destruct l as [|a [|b l]]; [congruence|simpl; eauto|].
      cbn [length Nat.ltb Nat.leb contribution].
      destruct (nth_error (a :: b :: l) i); eauto. }
    destruct C as (x & -> & X). destruct (IH (S i) (pred j) N) as [L H]. split; [simpl; now rewrite L|].
    destruct j as [|j]; simpl.
    - rewrite X. rewrite Nat.add_0_r. destruct e; [reflexivity|]. reflexivity.
    - cbn [pred] in H. rewrite H. replace (S i + j) with (i + S j) by lia. reflexivity.
  Qed.

  Lemma scalars_map l : scalars (map (@PS A) l) = Some l.
  Proof. induction l; simpl; [reflexivity|now rewrite IHl]. Qed.
  Lemma scalars_inv (l : list (pval A)) s : scalars l = Some s -> l = map PS s.
  Proof.
    revert s. induction l as [|[a|m] l IH]; simpl; intros s; [intros [= <-]; reflexivity| |discriminate].
    destruct (scalars l); [|discriminate]. intros [= <-]. simpl. now rewrite (IH _ eq_refl).
  Qed.
End Vec.

Lemma nth_error_ext_lemma {A} : forall l m : list A, (forall i, nth_error l i = nth_error m i) -> l = m.
Proof.
  induction l as [|a l IH]; intros [|b m] H; auto.
  - specialize (H 0). discriminate.
  - specialize (H 0). discriminate.
  - f_equal; [specialize (H 0); simpl in H; congruence|]. apply IH. intro i. exact (H (S i)).
Qed.
