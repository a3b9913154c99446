(** Properties C13 to C17: the input preprocessors. *)
From Coq Require Import QArith Lqa Lia ZArith.
From Verif Require Import Base PreModel PreProofs.
Open Scope nat_scope.

(** ** C13 Fuel capacities *)
(** With a total capacity given (FLOPS masses): accepted exactly when the tank capacities that were not given
    can be chosen non-negative so that the three add up to the total; nothing is changed. *)
Theorem C13_accepts_iff_completable :
  forall c t, fc_total c = Some t ->
    (is_ok (preprocess_fuel_capacities (Some FLOPS) c) = true <->
     exists w f a, allows (fc_wing c) w /\ allows (fc_fus c) f /\ allows (fc_aux c) a /\ (w + f + a == t)%Q) /\
    (forall c', preprocess_fuel_capacities (Some FLOPS) c = Ok c' -> c' = c) /\
    (forall e, preprocess_fuel_capacities (Some FLOPS) c = Err e -> e = UserWarning).
Proof. exact fuel_flops_total. Qed.
Print Assumptions C13_accepts_iff_completable.

(** Without a total: never rejected; only absent fuselage and auxiliary capacities are set, to zero. *)
Theorem C13_no_total_sets_zero :
  forall c, fc_total c = None ->
    exists c', preprocess_fuel_capacities (Some FLOPS) c = Ok c' /\
      fc_total c' = None /\ fc_wing c' = fc_wing c /\
      fc_fus c' = Some (match fc_fus c with Some q => q | None => 0%Q end) /\
      fc_aux c' = Some (match fc_aux c with Some q => q | None => 0%Q end).
Proof.
  intros c H. unfold preprocess_fuel_capacities. rewrite H. eexists. split; [reflexivity|].
  cbn [fc_total fc_wing fc_fus fc_aux]. repeat split.
Qed.
Print Assumptions C13_no_total_sets_zero.

Theorem C13_other_methods_and_idempotence :
  (forall c, preprocess_fuel_capacities (Some GASP) c = Ok c) /\
  (forall c, preprocess_fuel_capacities None c = Err UserWarning) /\
  (forall m c c', preprocess_fuel_capacities m c = Ok c' -> preprocess_fuel_capacities m c' = Ok c').
Proof. repeat split. exact fuel_idempotent. Qed.
Print Assumptions C13_other_methods_and_idempotence.

Example C13_witness :
  is_ok (preprocess_fuel_capacities (Some FLOPS)
    {| fc_total := Some 100%Q; fc_wing := Some 60%Q; fc_fus := None; fc_aux := Some 40%Q |}) = true /\
  preprocess_fuel_capacities (Some FLOPS)
    {| fc_total := Some 100%Q; fc_wing := Some 60%Q; fc_fus := Some 0%Q; fc_aux := Some 30%Q |} = Err UserWarning.
Proof. split; reflexivity. Qed.

(** ** C14 Passengers and cargo *)
(** FLOPS masses: totals equal the sum of the class counts, for design and mission. *)
Theorem C14_totals_match_classes :
  forall v d m, pax_nonneg d -> pax_nonneg m ->
    let '((d', m'), _) := preprocess_pax_flops v d m in
    (total' d' = first' d' + business' d' + economy' d')%Z /\
    (total' m' = first' m' + business' m' + economy' m')%Z.
Proof. exact flops_consistent. Qed.
Print Assumptions C14_totals_match_classes.

(** What each group ends up with.  [effective own other] is the group's own input if it has any, else the other
    group's.  Class counts are kept; the total gives way to a non-zero class sum; an all-zero class split
    leaves the total alone. *)
Theorem C14_values_kept :
  forall v d m d' m', fst (preprocess_pax_flops v d m) = (d', m') ->
    forall own other out, (own, other, out) = (d, m, d') \/ (own, other, out) = (m, d, m') ->
    let e := effective own other in
    let s := (odflt 0 (first_ e) + odflt 0 (business e) + odflt 0 (economy e))%Z in
    first' out = odflt 0%Z (first_ e) /\ business' out = odflt 0%Z (business e) /\
    (s <> 0%Z -> economy' out = odflt 0%Z (economy e) /\ total' out = s) /\
    (s = 0%Z -> total' out = odflt 0%Z (total e)).
Proof. exact flops_fields. Qed.
Print Assumptions C14_values_kept.

(** Overbooking is reported exactly when it happens (at VERBOSE and above) and a mission total that was given and
    replaced is reported (at BRIEF and above); a replaced design total is never reported. *)
Theorem C14_reports :
  forall v d m,
  let '((d', m'), ws) := preprocess_pax_flops v d m in
  (In W_more_than_design ws <-> (2 <= v)%Z /\ (total' d' < total' m')%Z) /\
  (In W_more_first ws <-> (2 <= v)%Z /\ (first' d' < first' m')%Z) /\
  (In W_more_business ws <-> (2 <= v)%Z /\ (business' d' < business' m')%Z) /\
  (In W_more_economy ws <-> (2 <= v)%Z /\ (economy' d' < economy' m')%Z) /\
  (In W_mission_total_overridden ws <-> (1 <= v)%Z /\ exists n, total m = Some n /\ n <> total' m') /\
  ~ In W_design_total_overridden ws.
Proof. exact warnings_iff. Qed.
Print Assumptions C14_reports.

(** A given design total can be replaced without any warning, at every verbosity. *)
Theorem C14_design_override_reported_refuted :
  exists d m, total d = Some 100%Z /\
    forall v, total' (fst (fst (preprocess_pax_flops v d m))) = 90%Z /\ snd (preprocess_pax_flops v d m) = [].
Proof.
  exists {| total := Some 100; first_ := Some 10; business := Some 0; economy := Some 80 |}%Z,
         {| total := Some 90; first_ := Some 10; business := Some 0; economy := Some 80 |}%Z.
  split; [reflexivity|]. intro v. split; reflexivity.
Qed.
Print Assumptions C14_design_override_reported_refuted.

(** GASP masses: only the totals count; an economy count given by the user is overwritten. *)
Theorem C14_gasp :
  forall d m, let '((dt, de), (mt, me)) := preprocess_pax_gasp d m in
    dt = odflt 0%Z (oor (total d) (total m)) /\ mt = odflt 0%Z (oor (total m) (total d)) /\
    (dt <> 0%Z -> de = Some dt) /\ (mt <> 0%Z -> me = Some mt).
Proof.
  intros d m. unfold preprocess_pax_gasp. destruct (total d) as [a|], (total m) as [b|]; simpl;
  repeat split; intro H; try (apply Z.eqb_neq in H; now rewrite H); lia.
Qed.
Print Assumptions C14_gasp.

(** Cargo: a success respects the maximum and the values given for maximum and design cargo. *)
Theorem C14_cargo_within_maximum :
  forall sizing c o, preprocess_cargo sizing c = Ok o ->
    (flown' o <= max' o)%Q /\ (des' o <= max' o)%Q /\
    (forall q, max c = Some q -> max' o = q) /\ (forall q, des c = Some q -> des' o = q).
Proof. exact cargo_ok. Qed.
Print Assumptions C14_cargo_within_maximum.

(** The documented table: what is assumed for the values that are absent, and when the result is rejected. *)
Theorem C14_cargo_table :
  forall sizing c,
    let m := match max c, des c, flown c with
             | Some m, _, _ => m | None, Some d, _ => d | None, None, Some f => f | None, None, None => 0%Q end in
    let d := match des c, flown c, max c with
             | Some d, _, _ => d | None, Some f, Some m => m | None, Some f, None => f | None, None, _ => 0%Q end in
    let f := match flown c, max c, des c with
             | Some f, Some m, Some d => if sizing && negb (Qeq_bool f d) then d else f
             | Some f, _, _ => f | None, _, _ => 0%Q end in
    ((f <= m)%Q /\ (d <= m)%Q -> preprocess_cargo sizing c = Ok {| flown' := f; max' := m; des' := d |}) /\
    (~ ((f <= m)%Q /\ (d <= m)%Q) -> preprocess_cargo sizing c = Err UserWarning).
Proof.
  intros sizing c. cbv zeta. unfold preprocess_cargo.
  set (o := cargo_assume sizing c).
  match goal with |- ((?f <= ?m)%Q /\ (?d <= ?m)%Q -> _) /\ _ =>
    assert (F : flown' o = f) by (unfold o; destruct c as [[?|] [?|] [?|]]; reflexivity);
    assert (M : max' o = m) by (unfold o; destruct c as [[?|] [?|] [?|]]; reflexivity);
    assert (D : des' o = d) by (unfold o; destruct c as [[?|] [?|] [?|]]; reflexivity);
    assert (O : o = {| flown' := f; max' := m; des' := d |}) by (rewrite <- F, <- M, <- D; now destruct o)
  end.
  rewrite <- O. rewrite <- F, <- M, <- D. split.
  - intros [A B]. apply Qle_bool_iff in A, B. now rewrite A, B.
  - intros N. destruct (Qle_bool (flown' o) (max' o)) eqn:E1; [|reflexivity].
    destruct (Qle_bool (des' o) (max' o)) eqn:E2; [|reflexivity]. apply Qle_bool_iff in E1, E2. tauto.
Qed.
Print Assumptions C14_cargo_table.

(** In a sizing mission the flown cargo is made equal to the design cargo if all three were given ... *)
Theorem C14_sizing_cargo_equal_when_all_given :
  forall c f m d o, flown c = Some f -> max c = Some m -> des c = Some d ->
    preprocess_cargo true c = Ok o -> (flown' o == des' o)%Q.
Proof.
  intros [cf cm cd] f m d o; simpl; intros -> -> ->. unfold preprocess_cargo. cbn [cargo_assume flown max des flown' max' des'].
  destruct (negb (Qle_bool (if true && negb (Qeq_bool f d) then d else f) m)); [discriminate|].
  destruct (negb (Qle_bool d m)); [discriminate|]. intros [= <-]. simpl.
  destruct (Qeq_bool f d) eqn:E; simpl; [now apply Qeq_bool_iff|reflexivity].
Qed.
Print Assumptions C14_sizing_cargo_equal_when_all_given.

(** ... but not otherwise, so running the preprocessor on its own output changes it again. *)
Theorem C14_sizing_cargo_equal_refuted :
  exists c o o2, preprocess_cargo true c = Ok o /\ ~ (flown' o == des' o)%Q /\
    preprocess_cargo true {| flown := Some (flown' o); max := Some (max' o); des := Some (des' o) |} = Ok o2 /\
    ~ (flown' o2 == flown' o)%Q.
Proof.
  exists {| flown := None; max := None; des := Some 1000%Q |}. do 2 eexists.
  split; [reflexivity|]. split; [vm_compute; discriminate|]. split; [reflexivity|]. vm_compute; discriminate.
Qed.
Print Assumptions C14_sizing_cargo_equal_refuted.

Example C14_witness :
  fst (preprocess_pax_flops 1 {| total := None; first_ := Some 10; business := None; economy := Some 90 |}%Z
                              {| total := Some 50; first_ := None; business := None; economy := None |}%Z)
  = ({| total' := 100; first' := 10; business' := 0; economy' := 90 |}%Z,
     {| total' := 50; first' := 0; business' := 0; economy' := 50 |}%Z).
Proof. reflexivity. Qed.
Example C14_witness_cargo :
  preprocess_cargo false {| flown := Some 5%Q; max := Some 4%Q; des := None |} = Err UserWarning /\
  is_ok (preprocess_cargo false {| flown := Some 3%Q; max := Some 4%Q; des := None |}) = true.
Proof. split; reflexivity. Qed.

(** ** C15 Crew *)
Theorem C15_monotone :
  forall p q, (p <= q)%Z ->
    (attendants_for p <= attendants_for q)%Z /\ (galley_for p <= galley_for q)%Z /\
    (flight_crew_for p <= flight_crew_for q)%Z.
Proof. intros p q H. split; [now apply attendants_mono|]. split; [now apply galley_mono|now apply flight_crew_mono]. Qed.
Print Assumptions C15_monotone.

(** at least one attendant per 50 passengers; from 51 passengers on, one more than the number of full 40s;
    from 151 passengers on, one galley crew member more than the number of full 250s and a third pilot. *)
Theorem C15_ratios :
  forall p,
    ((p <= 0)%Z -> attendants_for p = 0%Z) /\
    ((0 < p)%Z -> (p <= 50 * attendants_for p)%Z) /\
    ((0 < p <= 50)%Z -> attendants_for p = 1%Z) /\
    ((51 <= p)%Z -> (40 * (attendants_for p - 1) <= p < 40 * attendants_for p)%Z) /\
    ((p <= 150)%Z -> galley_for p = 0%Z /\ flight_crew_for p = 2%Z) /\
    ((150 < p)%Z -> (250 * (galley_for p - 1) <= p < 250 * galley_for p)%Z /\ flight_crew_for p = 3%Z).
Proof.
  intro p. repeat split.
  - unfold attendants_for. destruct (Z.ltb_spec 0 p); [lia|reflexivity].
  - intro H. apply (attendants_ratio p H).
  - intros H. unfold attendants_for. destruct (Z.ltb_spec 0 p); [|lia]. destruct (Z.ltb_spec p 51); [reflexivity|lia].
  - apply attendants_ratio; lia.
  - apply attendants_ratio; lia.
  - unfold galley_for. destruct (Z.ltb_spec 150 p); [lia|reflexivity].
  - unfold flight_crew_for. destruct (Z.ltb_spec p 151); [reflexivity|lia].
  - apply galley_ratio; lia.
  - apply galley_ratio; lia.
  - unfold flight_crew_for. destruct (Z.ltb_spec p 151); [lia|reflexivity].
Qed.
Print Assumptions C15_ratios.

(** Explicit non-negative input is kept; the cabin crew, if given, always becomes attendants plus galley crew. *)
Theorem C15_explicit_input :
  forall p c,
    (forall n, attendants c = Some n -> (0 <= n)%Z -> attendants (preprocess_crew p c) = Some n) /\
    (forall n, galley c = Some n -> (0 <= n)%Z -> galley (preprocess_crew p c) = Some n) /\
    (forall n, flight_crew c = Some n -> flight_crew (preprocess_crew p c) = Some n) /\
    ((attendants c = None \/ exists n, attendants c = Some n /\ (n < 0)%Z) ->
       attendants (preprocess_crew p c) = Some (attendants_for p)) /\
    ((galley c = None \/ exists n, galley c = Some n /\ (n < 0)%Z) -> galley (preprocess_crew p c) = Some (galley_for p)) /\
    (flight_crew c = None -> flight_crew (preprocess_crew p c) = Some (flight_crew_for p)) /\
    (cabin c = None -> cabin (preprocess_crew p c) = None) /\
    (cabin c <> None -> exists a g, attendants (preprocess_crew p c) = Some a /\ galley (preprocess_crew p c) = Some g /\
                                    cabin (preprocess_crew p c) = Some (a + g)%Z) /\
    preprocess_crew p (preprocess_crew p c) = preprocess_crew p c.
Proof.
  intros p [ca cg cf cc]. unfold preprocess_crew. cbn [attendants galley flight_crew cabin].
  assert (K : forall o z n, o = Some n -> (0 <= n)%Z -> keep_nonneg o z = n).
  { intros o z n -> H. simpl. destruct (Z.ltb_spec n 0); [lia|reflexivity]. }
  assert (K' : forall o z, (o = None \/ exists n, o = Some n /\ (n < 0)%Z) -> keep_nonneg o z = z).
  { intros o z [->|(n & -> & H)]; simpl; [reflexivity|]. destruct (Z.ltb_spec n 0); [reflexivity|lia]. }
  assert (P : forall o z, (0 <= z)%Z -> (0 <= keep_nonneg o z)%Z).
  { intros [n|] z H; simpl; [destruct (Z.ltb_spec n 0); lia|assumption]. }
  assert (P1 : (0 <= attendants_for p)%Z).
  { unfold attendants_for. destruct (Z.ltb_spec 0 p); [|lia]. destruct (Z.ltb_spec p 51); [lia|]. pose proof (Z.div_pos p 40). lia. }
  assert (P2 : (0 <= galley_for p)%Z).
  { unfold galley_for. destruct (Z.ltb_spec 150 p); [|lia]. pose proof (Z.div_pos p 250). lia. }
  repeat split.
  - intros n H1 H2. now rewrite (K _ _ n H1 H2).
  - intros n H1 H2. now rewrite (K _ _ n H1 H2).
  - intros n ->. reflexivity.
  - intro H. now rewrite (K' _ _ H).
  - intro H. now rewrite (K' _ _ H).
  - intros ->. reflexivity.
  - intros ->. reflexivity.
  - intro H. destruct cc as [n|]; [|congruence]. do 2 eexists. repeat split.
    destruct (Z.eqb_spec (keep_nonneg ca (attendants_for p) + keep_nonneg cg (galley_for p)) n) as [E|E]; congruence.
  - set (a := keep_nonneg ca _). set (g := keep_nonneg cg _).
    assert (A : (0 <= a)%Z) by now apply P. assert (G : (0 <= g)%Z) by now apply P.
    rewrite (K (Some a) _ a eq_refl A), (K (Some g) _ g eq_refl G). cbn [odflt]. f_equal.
    destruct cc as [n|]; [|reflexivity]. destruct (Z.eqb_spec (a + g) n) as [E|E].
    + destruct (Z.eqb_spec (a + g) n); congruence.
    + now rewrite Z.eqb_refl.
Qed.
Print Assumptions C15_explicit_input.

(** The baggage allowance is a step function of the design range. *)
Theorem C15_baggage :
  (forall r s, (r <= s)%Q -> (baggage_for (Some r) <= baggage_for (Some s))%Q) /\
  (forall o, In (baggage_for o) [35; 40; 44]%Q).
Proof.
  split.
  - intros r s H. unfold baggage_for.
    destruct (Qle_bool r 900) eqn:A, (Qle_bool s 900) eqn:B, (Qle_bool r 2900) eqn:C, (Qle_bool s 2900) eqn:D;
    try (vm_compute; discriminate);
    repeat match goal with
    | H : Qle_bool _ _ = true |- _ => apply Qle_bool_iff in H
    | H : Qle_bool _ _ = false |- _ => apply Qle_false in H
    end; exfalso; lra.
  - intros [r|]; simpl; [|auto]. destruct (Qle_bool r 900); [auto|]. destruct (Qle_bool r 2900); auto.
Qed.
Print Assumptions C15_baggage.

Example C15_witness :
  preprocess_crew 300 {| attendants := None; galley := Some (-1)%Z; flight_crew := Some 2%Z; cabin := Some 3%Z |}
  = {| attendants := Some 8%Z; galley := Some 2%Z; flight_crew := Some 2%Z; cabin := Some 10%Z |}.
Proof. reflexivity. Qed.

(** ** C16 Engine counts *)
(** One engine model: the mounts add up to the number of engines afterwards, unless exactly one engine has no mount,
    none was put on the wing and at least one on the fuselage; then one engine stays without a mount.  The total
    becomes the larger of the given total and the given mounts; no given mount count is reduced. *)
Theorem C16_counts_consistent_iff :
  forall n f w n' f' w', (0 <= n)%Z -> (0 <= f)%Z -> (0 <= w)%Z -> reconcile n f w = (n', f', w') ->
    ((n' = f' + w')%Z <-> ~ unhandled n f w) /\ (unhandled n f w -> (n' = f' + w' + 1)%Z) /\
    n' = Z.max n (f + w) /\ (f <= f')%Z /\ (w <= w')%Z.
Proof. exact reconcile_exact. Qed.
Print Assumptions C16_counts_consistent_iff.

Theorem C16_kept_and_idempotent :
  (forall n f w, (0 <= f)%Z -> (0 <= w)%Z -> (f + w = n)%Z -> (0 < n)%Z -> reconcile n f w = (n, f, w)) /\
  (forall n f w n' f' w', (0 <= n)%Z -> (0 <= f)%Z -> (0 <= w)%Z ->
     reconcile n f w = (n', f', w') -> reconcile n' f' w' = (n', f', w')) /\
  (forall n, (1 < n)%Z -> reconcile n 0 0 = (n, 0, n)%Z) /\ reconcile 1 0 0 = (1, 1, 0)%Z.
Proof.
  split; [exact reconcile_consistent_kept|]. split; [exact reconcile_idempotent|]. split; [|reflexivity].
  intros n H. unfold reconcile. simpl. destruct (Z.ltb_spec 1 n); [reflexivity|lia].
Qed.
Print Assumptions C16_kept_and_idempotent.

(** Any number of engine models: each is reconciled on its own, and the aircraft totals differ by the number of
    models left with an unmounted engine. *)
Theorem C16_all_engines :
  forall k n f w,
    (is_ok (preprocess_engine_counts k n f w) = true <->
     k <= length (count_vec k n) /\ k <= length (count_vec k f) /\ k <= length (count_vec k w)) /\
    forall r tn tf tw, preprocess_engine_counts k n f w = Ok (r, (tn, tf, tw)) ->
      length r = k /\
      (forall i, i < k -> exists a b c, nth_error (count_vec k n) i = Some a /\ nth_error (count_vec k f) i = Some b /\
                                        nth_error (count_vec k w) i = Some c /\ nth_error r i = Some (reconcile a b c)) /\
      (Forall (fun z => 0 <= z)%Z (count_vec k n) -> Forall (fun z => 0 <= z)%Z (count_vec k f) ->
       Forall (fun z => 0 <= z)%Z (count_vec k w) ->
       tn = (tf + tw + Z.of_nat (length (filter (fun t => unhandledb (fst (fst t)) (snd (fst t)) (snd t))
                                   (firstn k (zip3 (count_vec k n) (count_vec k f) (count_vec k w))))))%Z).
Proof.
  intros k n f w. unfold preprocess_engine_counts. split.
  - rewrite <- reconcile_all_ok. destruct (reconcile_all k _ _ _); simpl; tauto.
  - intros r tn tf tw. destruct (reconcile_all k _ _ _) as [r'|] eqn:E; simpl; [|discriminate].
    intros [= <- <- <- <-]. destruct (reconcile_all_nth _ _ _ _ _ E) as [L H]. split; [exact L|]. split; [exact H|].
    exact (totals _ _ _ _ _ E).
Qed.
Print Assumptions C16_all_engines.

(** Three engines, two of them on the fuselage: the third is never mounted. *)
Theorem C16_always_consistent_refuted :
  reconcile 3 2 0 = (3, 2, 0)%Z /\
  preprocess_engine_counts 1 (Some [3%Z]) (Some [2%Z]) None = Ok ([(3, 2, 0)]%Z, (3, 2, 0)%Z).
Proof. split; reflexivity. Qed.
Print Assumptions C16_always_consistent_refuted.

(** The odd-wing-count warning is decided before the engines are distributed: three unmounted engines all go to
    the wing without it. *)
Theorem C16_odd_wing_warning_refuted :
  reconcile 3 0 0 = (3, 0, 3)%Z /\ warns_odd_wing 3 0 0 = false.
Proof. split; reflexivity. Qed.
Print Assumptions C16_odd_wing_warning_refuted.

Example C16_witness :
  preprocess_engine_counts 3 (Some [4; 2; 3]%Z) (Some [0; 1; 0]%Z) (Some [2; 2; 2]%Z)
  = Ok ([(4, 0, 4); (3, 1, 2); (3, 1, 2)]%Z, (10, 2, 8)%Z).
Proof. reflexivity. Qed.

(** ** C17 Vectorisation *)
(** A variable with one value per engine model: one entry per model, taken from the model itself, else from the
    aircraft inputs (entry i of a longer list, the only entry of a one-element list, or the scalar), else the default. *)
Theorem C17_one_entry_per_engine :
  forall A (dflt : pval A) av engines, av <> Some (PL []) ->
    let vec := assemble false dflt av 0 engines in
    length vec = length engines /\
    forall i own, nth_error engines i = Some own ->
      nth_error vec i =
      Some (match own, av with
            | Some v, _ => v
            | None, None => dflt
            | None, Some (PS a) => PS a
            | None, Some (PL [a]) => PS a
            | None, Some (PL l) => match nth_error l i with Some a => PS a | None => dflt end
            end).
Proof.
  intros A dflt av engines N. cbv zeta. split.
  - apply (assemble_nth_gen dflt av engines 0 0 N).
  - intros i own H. destruct (assemble_nth_gen dflt av engines 0 i N) as [_ E]. rewrite E, H. reflexivity.
Qed.
Print Assumptions C17_one_entry_per_engine.

(** Storing the vector: numbers become an array of exactly these entries; a list among numbers is an error. *)
Theorem C17_stored :
  forall A (dflt : pval A) av engines s, av <> Some (PL []) ->
    vectorise false dflt av engines = Ok (Arr s) ->
    length s = length engines /\ assemble false dflt av 0 engines = map PS s /\
    vectorise false dflt (Some (PL s)) engines = Ok (Arr s).
Proof.
  intros A dflt av engines s N. unfold vectorise.
  destruct (assemble false dflt av 0 engines) as [|[a|l] vec] eqn:E; [discriminate| |discriminate].
  destruct (scalars (PS a :: vec)) as [s'|] eqn:S; [|discriminate]. intros [= ->].
  apply scalars_inv in S. rewrite S in E.
  assert (L : length s = length engines).
  { destruct (assemble_nth_gen dflt av engines 0 0 N) as [L _]. rewrite E, map_length in L. exact L. }
  split; [exact L|]. split; [congruence|].
  assert (NE : Some (PL s) <> Some (@PL A [])) by (destruct s; discriminate).
  assert (E2 : assemble false dflt (Some (PL s)) 0 engines = map PS s).
  { apply nth_error_ext_lemma. intro i. destruct (assemble_nth_gen dflt (Some (PL s)) engines 0 i NE) as [_ H].
    destruct (assemble_nth_gen dflt av engines 0 i N) as [_ H']. rewrite E in H'. rewrite H.
    destruct (nth_error engines i) as [[v|]|] eqn:I; [congruence| |congruence].
    simpl. assert (J : i < length s) by (rewrite L; apply nth_error_Some; congruence).
    destruct s as [|x [|y s]]; [simpl in J; lia| |].
    - destruct i; [reflexivity|simpl in J; lia].
    - rewrite nth_error_map. destruct (nth_error (x :: y :: s) i) as [z|] eqn:Z; [reflexivity|].
      apply nth_error_None in Z. lia. }
  rewrite E2. destruct s as [|x s]; [discriminate|]. cbn [map]. change (PS x :: map PS s) with (map (@PS A) (x :: s)).
  now rewrite scalars_map.
Qed.
Print Assumptions C17_stored.

(** Variables that may hold a list per engine: with a list of its own for every engine model, the lists are joined in order. *)
Theorem C17_multidimensional_own_lists :
  forall A (dflt : pval A) av (ls : list (list A)),
    assemble true dflt av 0 (map (fun l => Some (PL l)) ls) = map PS (concat ls).
Proof.
  intros A dflt av ls. generalize 0 at 1. induction ls as [|l ls IH]; intro i; simpl; [reflexivity|].
  now rewrite IH, map_app.
Qed.
Print Assumptions C17_multidimensional_own_lists.

(** But a list in the aircraft inputs is taken whole by every engine model: two models and two values give four
    entries (aircraft:engine:additional_mass_fraction has such a type), and running it again gives eight. *)
Theorem C17_multidimensional_aircraft_list_refuted :
  forall A (x y : A) dflt,
    vectorise true dflt (Some (PL [x; y])) [None; None] = Ok (Arr [x; y; x; y]) /\
    vectorise true dflt (Some (PL [x; y; x; y])) [None; None] = Ok (Arr [x; y; x; y; x; y; x; y]).
Proof. intros. split; reflexivity. Qed.
Print Assumptions C17_multidimensional_aircraft_list_refuted.

(** An empty list in the aircraft inputs contributes no entry, which shifts the entries of later models. *)
Theorem C17_empty_list_refuted :
  forall A (x : A) dflt,
    vectorise false dflt (Some (PL [])) [None; Some (PS x)] = Ok (Arr [x]) /\
    vectorise false dflt (Some (PL [])) [None] = @Err (stored A) IndexError.
Proof. intros. split; reflexivity. Qed.
Print Assumptions C17_empty_list_refuted.

(** A list default (wing_locations: [0.0]) used for the second engine model only makes the array construction fail. *)
Theorem C17_list_default_refuted :
  forall A (x d : A), vectorise true (PL [d]) None [Some (PL [x]); None] = @Err (stored A) ValueError.
Proof. reflexivity. Qed.
Print Assumptions C17_list_default_refuted.

Example C17_witness :
  vectorise false (PS 9) (Some (PL [1; 2])) [None; Some (PS 7); None] = Ok (Arr [1; 7; 9]).
Proof. reflexivity. Qed.
