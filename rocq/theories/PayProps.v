(** C26: payload-range analysis. *)
From Coq Require Import QArith Lqa.
From Verif Require Import Base PayModel PayProofs.
Open Scope nat_scope.
Open Scope list_scope.

(** Exactly when the table is produced, which missions are flown for it and what it contains. *)
Theorem C26_table_iff : forall fly quiet s rows,
  fst (run_payload_range fly quiet s) = Ok (ATable rows) <->
  started quiet s /\ s_eom s = ENERGY_STATE /\ s_method s = FLOPS /\ has_room s /\ ~ (s_payload s == 0)%Q /\
  exists c st3 st4, s_cruise s = Some c /\ mission3 s c st3 /\ mission4 s c (usable_fuel s) st4 /\
  r_success (fly st3) = true /\ r_success (fly st4) = true /\ rows = table s (fly st3) (fly st4).
Proof. exact table_iff. Qed.
Print Assumptions C26_table_iff.

(** The load of the intermediate point fits under the take-off mass and is short of it by less than
    three passengers, which the free cargo variable is there to make up. *)
Theorem C26_load : forall s c st mu m,
  mission3 s c st -> has_room s -> (0 <= mu)%Q -> (0 < s_payload s)%Q ->
  (0 <= s_first s)%Q -> (0 <= s_business s)%Q -> (0 <= s_economy s)%Q ->
  (s_payload s == mu * (s_first s + s_business s + s_economy s) + s_wing s + s_misc s)%Q ->
  loaded mu st m ->
  (s_operating s + usable_fuel s + m <= s_gross s)%Q /\
  (s_gross s - 3 * mu <= s_operating s + usable_fuel s + m)%Q /\
  (0 < mu -> s_gross s - 3 * mu < s_operating s + usable_fuel s + m)%Q.
Proof.
  intros s c st mu m M R U P F B E T L.
  destruct (load_bounds s c st mu m M R U P F B E T L) as (H1&H2&H3). unfold remaining in *.
  split; [lra|]. split; [lra|]. intro K. specialize (H3 K). lra.
Qed.
Print Assumptions C26_load.

(** The payload of the intermediate point is not larger than the design payload exactly when the
    design payload and full tanks reach the take-off mass. *)
Theorem C26_reduced_iff : forall s, has_room s ->
  ((remaining s <= s_payload s)%Q <-> (s_gross s <= s_operating s + usable_fuel s + s_payload s)%Q).
Proof. intros s _. unfold remaining. split; intro; lra. Qed.
Print Assumptions C26_reduced_iff.

(** The ferry mission takes off with as much fuel as fits in the tanks and under the take-off mass. *)
Theorem C26_ferry_gross : forall s c st fuel,
  (fuel = usable_fuel s /\ has_room s) \/ (fuel = s_gross s - s_operating s /\ ~ has_room s)%Q ->
  mission4 s c fuel st ->
  exists g, i_gross st = Some g /\ (g <= s_gross s)%Q /\ (g <= s_operating s + usable_fuel s)%Q /\
            ((g == s_gross s)%Q \/ (g == s_operating s + usable_fuel s)%Q).
Proof.
  intros s c st fuel H [_ _ G _ _]. exists (s_operating s + fuel)%Q. split; [exact G|].
  unfold has_room in H. destruct H as [[-> R]|[-> R]]; [split; [lra|split; [lra|right; reflexivity]]|].
  apply Qnot_lt_le in R. split; [lra|]. split; [lra|]. left. lra.
Qed.
Print Assumptions C26_ferry_gross.

(** The cruise bounds of the problem afterwards: the upper one is doubled by every analysis that is
    carried out. *)
Theorem C26_cruise_after : forall fly quiet s,
  snd (run_payload_range fly quiet s) =
  match s_cruise s with
  | Some (Some (lo, hi)) =>
      if match s_eom s with ENERGY_STATE => quiet || (s_success s && negb (s_multi_mission s)) | OTHER_EOM => false end
      then Some (Some (lo, 2 * hi)%Q) else Some (Some (lo, hi))
  | x => x
  end.
Proof.
  intros fly quiet s. unfold run_payload_range.
  destruct (s_success s), (s_multi_mission s), quiet, (s_eom s), (s_cruise s) as [[[lo hi]|]|]; reflexivity.
Qed.
Print Assumptions C26_cruise_after.

(** ** Concrete aircraft: 10 + 20 + 120 seats at 200 lbm and 2,000 lbm cargo *)
Definition jet (m : mass_method) (cap : Q) : sized :=
  {| s_success := true; s_multi_mission := false; s_method := m; s_eom := ENERGY_STATE;
     s_payload := 32000; s_range := 3000; s_gross := 170000; s_operating := 98000;
     s_capacity := cap; s_unusable := 500; s_fuel := 40000; s_design_gross := 170000;
     s_wing := 0; s_misc := 2000; s_first := 10; s_business := 20; s_economy := 120;
     s_cruise := Some (Some (60, 600)%Q) |}.
Definition fine : setup -> outcome :=
  fun st => {| r_success := true;
               r_payload := match dvars st with (DGrossMass, _) :: _ => 0 | _ => 21000 end;
               r_range := 4000; r_fuel := 45000 |}%Q.

Example C26_witness :
  run_payload_range fine false (jet FLOPS 46500) =
  (Ok (ATable [{| p_payload := 32000; p_fuel := 0; p_range := 0 |};
               {| p_payload := 32000; p_fuel := 40000; p_range := 3000 |};
               {| p_payload := 21000; p_fuel := 45000; p_range := 4000 |};
               {| p_payload := 0; p_fuel := 45000; p_range := 4000 |}]%Q),
   Some (Some (60, 2 * 600)%Q)).
Proof. vm_compute. reflexivity. Qed.

(** With full tanks 26,000 lbm of the 32,000 lbm remain: 8 + 16 + 97 seats and 1,625 lbm of cargo. *)
Example C26_witness_load : exists st m,
  mission3 (jet FLOPS 46500) (Some (60, 600)%Q) st /\ has_room (jet FLOPS 46500) /\
  loaded 200 st m /\ (m == 25825)%Q /\ (remaining (jet FLOPS 46500) == 26000)%Q /\
  i_first st = Some 8%Z /\ i_business st = Some 16%Z /\ i_economy st = Some 97%Z /\ i_pax st = None.
Proof.
  destruct (m3_setup (jet FLOPS 46500) (Some (60, 600)%Q) eq_refl) as (st&E&M).
  exists st, (200 * (8 + 16 + 97) + 1625)%Q. split; [exact M|].
  vm_compute in E. injection E as <-.
  split; [reflexivity|]. split; [|repeat split; vm_compute; reflexivity].
  exists 8%Z, 16%Z, 97%Z. eexists _, _. cbn. repeat (split; [reflexivity|]). vm_compute. reflexivity.
Qed.

Example C26_witness_ferry : exists st, mission4 (jet FLOPS 46500) (Some (60, 600)%Q) 46000 st /\
  i_gross st = Some (98000 + 46000)%Q.
Proof. destruct (m4_setup (jet FLOPS 46500) (Some (60, 600)%Q) 46000) as (st&E&M). exists st. split; [exact M|]. now apply m4_gross in M. Qed.

(** ** Findings *)

(** L1741-1743 and L1837-1841: when full tanks exceed the take-off mass the third point is the ferry
    point.  The table is never written, and a successful ferry mission ends in an error, because
    fuel_3 is not assigned on this path. *)
Theorem C26_tank_limited : forall fly quiet s c st4,
  started quiet s -> s_eom s = ENERGY_STATE -> s_cruise s = Some c -> ~ has_room s ->
  mission4 s c (s_gross s - s_operating s) st4 ->
  fst (run_payload_range fly quiet s) = if r_success (fly st4) then Err UnboundLocalError else Ok ANone.
Proof.
  intros fly quiet s c st4 S O C R M4.
  destruct (run_cases fly quiet s) as [(N&_)|[(_&O'&_)|[(_&_&C'&_)|(c'&_&_&C'&_&H)]]];
    [contradiction|congruence|congruence|].
  assert (c' = c) by congruence. subst c'.
  destruct H as [(_&st4'&M4'&E)|[(R'&_)|[(R'&_)|(R'&_)]]]; try contradiction.
  now rewrite (m4_unique _ _ _ _ _ M4 M4').
Qed.
Print Assumptions C26_tank_limited.

Theorem C26_skipped_point_refuted :
  ~ (forall fly quiet s c, started quiet s -> s_eom s = ENERGY_STATE -> s_cruise s = Some c ->
     ~ has_room s -> (forall st, r_success (fly st) = true) ->
     exists rows, fst (run_payload_range fly quiet s) = Ok (ATable rows)).
Proof.
  intro H. destruct (H fine false (jet FLOPS 80000) (Some (60, 600)%Q)) as (rows&E); try reflexivity.
  - right. split; reflexivity.
  - unfold has_room. vm_compute. discriminate.
  - vm_compute in E. discriminate.
Qed.
Print Assumptions C26_skipped_point_refuted.

(** With GASP masses no table can be produced: the cargo mass is not passed to mission 3, and its
    bound is None * 1.05 (L1607-1613). *)
Theorem C26_gasp : forall fly quiet s, s_method s = GASP ->
  (forall rows, fst (run_payload_range fly quiet s) <> Ok (ATable rows)) /\
  (started quiet s -> s_eom s = ENERGY_STATE -> s_cruise s <> None -> has_room s -> ~ (s_payload s == 0)%Q ->
   fst (run_payload_range fly quiet s) = Err TypeError).
Proof.
  intros fly quiet s M. split.
  - intros rows E. apply table_iff in E. destruct E as (_&_&K&_). congruence.
  - intros S O C R P.
    destruct (run_cases fly quiet s) as [(N&_)|[(_&O'&_)|[(_&_&C'&_)|(c'&_&_&C'&_&H)]]];
      [contradiction|congruence|congruence|].
    destruct H as [(R'&_)|[(_&P'&_)|[(_&_&_&E)|(_&_&M'&_)]]]; congruence || contradiction.
Qed.
Print Assumptions C26_gasp.

Theorem C26_gasp_refuted :
  ~ (forall fly quiet s c, started quiet s -> s_eom s = ENERGY_STATE -> s_cruise s = Some c ->
     has_room s -> (0 < s_payload s)%Q -> (forall st, r_success (fly st) = true) ->
     exists rows, fst (run_payload_range fly quiet s) = Ok (ATable rows)).
Proof.
  intro H. destruct (H fine false (jet GASP 46500) (Some (60, 600)%Q)) as (rows&E); try reflexivity.
  - right. split; reflexivity.
  - vm_compute in E. discriminate.
Qed.
Print Assumptions C26_gasp_refuted.

(** L1705-1707: "This checks if the 'cruise' phase exists". *)
Theorem C26_no_cruise : forall fly quiet s,
  started quiet s -> s_eom s = ENERGY_STATE -> s_cruise s = None ->
  fst (run_payload_range fly quiet s) = Err KeyError.
Proof.
  intros fly quiet s S O C.
  destruct (run_cases fly quiet s) as [(N&_)|[(_&O'&_)|[(_&_&_&E)|(c'&_&_&C'&_)]]];
    [contradiction|congruence|now rewrite E|congruence].
Qed.
Print Assumptions C26_no_cruise.

(** L1702: "make a copy of the phase_info to avoid modifying the original". *)
Theorem C26_original_unchanged_refuted :
  ~ (forall fly quiet s, snd (run_payload_range fly quiet s) = s_cruise s).
Proof. intro H. specialize (H fine false (jet FLOPS 46500)). vm_compute in H. discriminate. Qed.
Print Assumptions C26_original_unchanged_refuted.

(** The analysis declines a problem that has not converged or is multi-mission (L1685-1695) only when
    it may print the warning. *)
Theorem C26_declined_iff : forall fly quiet s,
  fst (run_payload_range fly quiet s) = Ok ANothing <->
  quiet = false /\ (s_success s = false \/ s_multi_mission s = true).
Proof.
  intros fly quiet s.
  assert (S : ~ started quiet s <-> quiet = false /\ (s_success s = false \/ s_multi_mission s = true)).
  { unfold started. destruct quiet, (s_success s), (s_multi_mission s); intuition discriminate. }
  rewrite <- S.
  destruct (run_cases fly quiet s) as [(N&E)|[(St&_&E)|[(St&_&_&E)|(c&St&_&_&_&H)]]].
  - rewrite E. cbn. tauto.
  - rewrite E. cbn. split; [discriminate|contradiction].
  - rewrite E. cbn. split; [discriminate|contradiction].
  - split; [|contradiction]. intro K. exfalso.
    destruct H as [(_&st&_&E)|[(_&_&E)|[(_&_&_&E)|(_&_&_&st3&st4&_&_&E)]]]; rewrite E in K.
    + destruct (r_success (fly st)); discriminate.
    + discriminate.
    + discriminate.
    + destruct (r_success (fly st4) && r_success (fly st3)); discriminate.
Qed.
Print Assumptions C26_declined_iff.

Theorem C26_unconverged_declined_refuted :
  ~ (forall fly quiet s, s_success s = false -> fst (run_payload_range fly quiet s) = Ok ANothing).
Proof.
  intro H. specialize (H fine true
    {| s_success := false; s_multi_mission := false; s_method := FLOPS; s_eom := ENERGY_STATE;
       s_payload := 32000; s_range := 3000; s_gross := 170000; s_operating := 98000;
       s_capacity := 46500; s_unusable := 500; s_fuel := 40000; s_design_gross := 170000;
       s_wing := 0; s_misc := 2000; s_first := 10; s_business := 20; s_economy := 120;
       s_cruise := Some None |} eq_refl).
  vm_compute in H. discriminate.
Qed.
Print Assumptions C26_unconverged_declined_refuted.

(** The tanks do not bound the ferry mission: its take-off mass is a design variable whose upper
    bound is the design take-off mass. *)
Theorem C26_ferry_bound_refuted :
  ~ (forall s c st d ub, has_room s -> mission4 s c (usable_fuel s) st -> In (d, ub) (dvars st) ->
     (ub <= s_operating s + usable_fuel s)%Q).
Proof.
  intro H. destruct (m4_setup (jet FLOPS 46500) (Some (60, 600)%Q) (usable_fuel (jet FLOPS 46500))) as (st&_&M).
  assert (I : In (DGrossMass, 170000%Q) (dvars st)) by (rewrite (m4_free _ _ _ _ M); now left).
  specialize (H _ _ _ _ _ (eq_refl : has_room (jet FLOPS 46500)) M I). vm_compute in H. now apply H.
Qed.
Print Assumptions C26_ferry_bound_refuted.

(** When design payload and full tanks do not reach the take-off mass, mission 3 carries more than
    the design payload: more passengers than seats. *)
Theorem C26_seats_refuted :
  ~ (forall s c st n, mission3 s c st -> has_room s -> (0 < s_payload s)%Q -> i_economy st = Some n ->
     (inject_Z n <= s_economy s)%Q).
Proof.
  intro H. destruct (m3_setup (jet FLOPS 36500) (Some (60, 600)%Q) eq_refl) as (st&E&M).
  specialize (H _ _ st 135%Z M eq_refl eq_refl).
  vm_compute in E. injection E as <-. specialize (H eq_refl). vm_compute in H. now apply H.
Qed.
Print Assumptions C26_seats_refuted.

(** Otherwise no class is overbooked. *)
Theorem C26_seats : forall s c st f b e,
  mission3 s c st -> has_room s -> (0 < s_payload s)%Q ->
  (s_gross s <= s_operating s + usable_fuel s + s_payload s)%Q ->
  (0 <= s_first s)%Q -> (0 <= s_business s)%Q -> (0 <= s_economy s)%Q ->
  i_first st = Some f -> i_business st = Some b -> i_economy st = Some e ->
  ((0 <= f)%Z /\ (inject_Z f <= s_first s)%Q) /\ ((0 <= b)%Z /\ (inject_Z b <= s_business s)%Q) /\
  ((0 <= e)%Z /\ (inject_Z e <= s_economy s)%Q).
Proof.
  intros s c st f b e [A1 _ _ _ _ _ _] R P G F0 B0 E0 F B E.
  destruct A1 as (f1&b1&e1&F1&B1&E1&Wf&Wb&We&_).
  rewrite F in F1. injection F1 as <-. rewrite B in B1. injection B1 as <-. rewrite E in E1. injection E1 as <-.
  set (k := (remaining s / s_payload s)%Q) in *.
  assert (K0 : (0 <= k)%Q) by (subst k; apply Qle_shift_div_l; [exact P|]; unfold remaining, has_room in *; lra).
  assert (K1 : (k <= 1)%Q) by (subst k; apply Qle_shift_div_r; [exact P|]; unfold remaining, has_room in *; lra).
  assert (Z : forall x n, (0 <= x)%Q -> whole_part (x * k) n -> (0 <= n)%Z /\ (inject_Z n <= x)%Q).
  { intros x n X W. destruct (whole_le (x * k) n) as (N&L&_); [now apply Qmult_le_0_compat|exact W|].
    split; [exact N|]. assert (x * k <= x * 1)%Q; [|lra].
    rewrite (Qmult_comm x k), (Qmult_comm x 1). now apply Qmult_le_compat_r. }
  auto.
Qed.
Print Assumptions C26_seats.

(** run_off_design_mission: which requests are refused. *)
Theorem C26_off_design_errors : forall s c a,
  (exists e, off_design_setup s c a = Err e) <->
  o_type a = T_SIZING \/ (o_fill_cargo a = true /\ o_fill_fuel a = true) \/
  (o_fill_cargo a = true /\ s_method s = GASP /\ o_cargo a = None).
Proof. exact off_errors. Qed.
Print Assumptions C26_off_design_errors.

(** What an accepted request passes on.  A minimum fuel mission starts from nine tenths of the
    take-off mass; only a FLOPS aircraft whose classes are all empty gets a new passenger total. *)
Theorem C26_off_design_inputs : forall s c a st, off_design_setup s c a = Ok st ->
  i_cargo st = o_cargo a /\ i_cruise st = c /\
  (exists g, i_gross st = Some g /\
     (g == (match o_gross a with Some x => x | None => s_design_gross s end) *
           (match o_type a with T_MIN_FUEL => 9 # 10 | _ => 1 end))%Q) /\
  (s_method s = GASP -> i_pax st = o_pax a /\
     i_first st = None /\ i_business st = None /\ i_economy st = None /\ i_wing st = None /\ i_misc st = None) /\
  (s_method s = FLOPS ->
     i_first st = o_first a /\ i_business st = o_business a /\ i_economy st = o_economy a /\
     i_wing st = o_wing a /\ i_misc st = o_misc a /\
     (i_pax st = Some 0%Z <->
      o_pax a = Some 0%Z \/
      (o_pax a = None /\ forall x, o_first a = Some x \/ o_business a = Some x \/ o_economy a = Some x -> x = 0%Z)) /\
     (forall n, n <> 0%Z -> (i_pax st = Some n <-> o_pax a = Some n))).
Proof.
  intros s c a st. unfold off_design_setup.
  assert (PX : forall o1 o2 o3 : option Z,
    negb (truthyZ o1 || truthyZ o2 || truthyZ o3) = true <->
    (valZ o1 = 0 /\ valZ o2 = 0 /\ valZ o3 = 0)%Z).
  { intros o1 o2 o3. assert (T : forall o, truthyZ o = negb (Z.eqb (valZ o) 0)) by (intros [n|]; reflexivity).
    rewrite !T. destruct (Z.eqb_spec (valZ o1) 0), (Z.eqb_spec (valZ o2) 0), (Z.eqb_spec (valZ o3) 0);
      cbn; intuition discriminate. }
  assert (V : forall o : option Z, valZ o = 0%Z <-> forall x, o = Some x -> x = 0%Z).
  { intros [n|]; cbn; split; [intros -> x [= <-]; reflexivity|auto|discriminate|reflexivity]. }
  set (pax := if match s_method s with FLOPS => true | GASP => false end && _ && _ then _ else _).
  assert (P : (s_method s = GASP -> pax = o_pax a) /\
              (s_method s = FLOPS ->
               (pax = Some 0%Z <-> o_pax a = Some 0%Z \/
                (o_pax a = None /\ forall x, o_first a = Some x \/ o_business a = Some x \/ o_economy a = Some x -> x = 0%Z)) /\
               (forall n, n <> 0%Z -> (pax = Some n <-> o_pax a = Some n)))).
  { split; intro M; unfold pax; rewrite M; cbn [andb]; [reflexivity|].
    destruct (o_pax a) as [n|] eqn:EP; [cbn [andb]; split; [intuition discriminate|tauto]|cbn [andb]].
    destruct (negb (truthyZ (o_economy a) || truthyZ (o_business a) || truthyZ (o_first a))) eqn:EN.
    - apply PX in EN. destruct EN as (E1&E2&E3). split.
      + split; [intros _; right|rewrite E1, E2, E3; reflexivity]. split; [reflexivity|].
        intros x [K|[K|K]]; [exact (proj1 (V _) E3 x K)|exact (proj1 (V _) E2 x K)|exact (proj1 (V _) E1 x K)].
      + intros n Hn. rewrite E1, E2, E3. cbn. split; [intros [= <-]; contradiction|discriminate].
    - split; [|intros; split; discriminate]. split; [discriminate|]. intros [K|[_ K]]; [discriminate|].
      exfalso. assert (negb (truthyZ (o_economy a) || truthyZ (o_business a) || truthyZ (o_first a)) = true); [|congruence].
      apply PX. repeat split; apply V; auto. }
  destruct P as [PG PF]. clearbody pax. clear PX V.
  destruct (o_type a) eqn:ET; [discriminate| |];
  (destruct (o_fill_cargo a && o_fill_fuel a); [discriminate|]);
  (match goal with |- rbind ?r _ = _ -> _ => destruct r as [dv|]; [|discriminate] end);
  cbn [rbind]; intros [= <-]; cbn [i_cargo i_cruise i_gross i_pax i_first i_business i_economy i_wing i_misc];
  (split; [reflexivity|]); (split; [reflexivity|]);
  (split; [eexists; split; [reflexivity|first [reflexivity|ring]]|]);
  (split; [intro M; rewrite M; split; [now apply PG|tauto]|intro M; rewrite M; repeat (split; [reflexivity|]); now apply PF]).
Qed.
Print Assumptions C26_off_design_inputs.
