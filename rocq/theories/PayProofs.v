(** Lemmas for the payload-range analysis. *)
From Coq Require Import QArith Qround Lqa.
From Verif Require Import Base PayModel.
Open Scope nat_scope.
Open Scope list_scope.

(** ** Specification *)
Definition usable_fuel (s : sized) : Q := (s_capacity s - s_unusable s)%Q.

(** Full tanks leave room for some payload below the take-off mass. *)
Definition has_room (s : sized) : Prop := (s_operating s + usable_fuel s < s_gross s)%Q.
Definition remaining (s : sized) : Q := (s_gross s - s_operating s - usable_fuel s)%Q.

(** The whole part of a number (towards zero). *)
Inductive whole_part (x : Q) (n : Z) : Prop :=
| whole_pos : (0 <= x -> inject_Z n <= x -> x < inject_Z n + 1 -> whole_part x n)%Q
| whole_neg : (x < 0 -> inject_Z n - 1 < x -> x <= inject_Z n -> whole_part x n)%Q.

Definition started (quiet : bool) (s : sized) : Prop :=
  quiet = true \/ (s_success s = true /\ s_multi_mission s = false).

(** The cruise bounds given to the new missions. *)
Definition stretched (c : option (Q * Q)) : option (Q * Q) :=
  match c with Some (lo, hi) => Some (lo, 2 * hi)%Q | None => None end.

(** Mission 3: full tanks, the payload reduced in proportion, cargo free up to a bound. *)
Definition cargo_free (s : sized) (wing misc : Q) (l : list (dvar * Q)) : Prop :=
  (~ (misc == 0)%Q /\ l = [(DMiscCargo, misc * (11 # 10))%Q]) \/
  ((misc == 0)%Q /\ ~ (wing == 0)%Q /\ l = [(DWingCargo, wing * (11 # 10))%Q]) \/
  ((misc == 0)%Q /\ (wing == 0)%Q /\ l = [(DMiscCargo, s_design_gross s * (5 # 100))%Q]).

Record mission3 (s : sized) (c : option (Q * Q)) (st : setup) : Prop :=
  { m3_classes : exists f b e,
      i_first st = Some f /\ i_business st = Some b /\ i_economy st = Some e /\
      whole_part (s_first s * (remaining s / s_payload s)) f /\
      whole_part (s_business s * (remaining s / s_payload s)) b /\
      whole_part (s_economy s * (remaining s / s_payload s)) e /\
      i_pax st = (if (f =? 0)%Z && (b =? 0)%Z && (e =? 0)%Z then Some 0%Z else None);
    m3_wing : i_wing st = Some (s_wing s * (remaining s / s_payload s))%Q;
    m3_misc : i_misc st = Some (s_misc s * (remaining s / s_payload s))%Q;
    m3_cargo : i_cargo st = None;
    m3_gross : i_gross st = Some (s_design_gross s);
    m3_free : cargo_free s (s_wing s * (remaining s / s_payload s)) (s_misc s * (remaining s / s_payload s)) (dvars st);
    m3_cruise : i_cruise st = Some (stretched c) }.

(** Mission 4: no payload, as much fuel as tanks and take-off mass allow. *)
Record mission4 (s : sized) (c : option (Q * Q)) (fuel : Q) (st : setup) : Prop :=
  { m4_classes : s_method s = FLOPS -> i_first st = Some 0%Z /\ i_business st = Some 0%Z /\ i_economy st = Some 0%Z /\
                 i_wing st = Some 0%Q /\ i_misc st = Some 0%Q /\ i_cargo st = None /\ i_pax st = Some 0%Z;
    m4_gasp : s_method s = GASP -> i_first st = None /\ i_business st = None /\ i_economy st = None /\
              i_wing st = None /\ i_misc st = None /\ i_cargo st = Some 0%Q /\ i_pax st = None;
    m4_gross : i_gross st = Some (s_operating s + fuel)%Q;
    m4_free : dvars st = [(DGrossMass, s_design_gross s)];
    m4_cruise : i_cruise st = Some (stretched c) }.

(** ** Lemmas *)
Lemma trunc_whole : forall q, whole_part q (trunc q).
Proof.
  intros [n d]. unfold trunc. cbn [Qnum Qden].
  destruct (Z.le_gt_cases 0 n) as [P|P].
  - rewrite Z.quot_div_nonneg by lia. apply whole_pos.
    + unfold Qle. cbn. lia.
    + change (n / Z.pos d)%Z with (Qfloor (n # d)). apply Qfloor_le.
    + change (n / Z.pos d)%Z with (Qfloor (n # d)). rewrite <- (inject_Z_plus _ 1). apply Qlt_floor.
  - assert (E : Z.quot n (Z.pos d) = (- ((- n) / Z.pos d))%Z).
    { rewrite <- (Z.opp_involutive n) at 1. rewrite Z.quot_opp_l by lia. now rewrite Z.quot_div_nonneg by lia. }
    rewrite E. change ((- n) / Z.pos d)%Z with (Qfloor ((- n) # d)).
    pose proof (Qfloor_le ((- n) # d)) as A. pose proof (Qlt_floor ((- n) # d)) as B.
    rewrite inject_Z_plus in B. change (inject_Z 1) with 1%Q in B.
    assert (X : ((- n) # d == - (n # d))%Q) by reflexivity.
    rewrite X in A at 2. rewrite X in B at 1.
    apply whole_neg; [unfold Qlt; cbn; lia| |]; rewrite inject_Z_opp; lra.
Qed.

Lemma whole_unique : forall q n m, whole_part q n -> whole_part q m -> n = m.
Proof.
  intros q n m A B. destruct A as [A0 A1 A2|A0 A1 A2], B as [B0 B1 B2|B0 B1 B2]; try (exfalso; lra).
  - assert (inject_Z n < inject_Z (m + 1))%Q by (rewrite inject_Z_plus; change (inject_Z 1) with 1%Q; lra).
    assert (inject_Z m < inject_Z (n + 1))%Q by (rewrite inject_Z_plus; change (inject_Z 1) with 1%Q; lra).
    rewrite <- Zlt_Qlt in *. lia.
  - assert (inject_Z (n - 1) < inject_Z m)%Q by (replace (n - 1)%Z with (n + -1)%Z by lia; rewrite inject_Z_plus; change (inject_Z (-1)) with (-1)%Q; lra).
    assert (inject_Z (m - 1) < inject_Z n)%Q by (replace (m - 1)%Z with (m + -1)%Z by lia; rewrite inject_Z_plus; change (inject_Z (-1)) with (-1)%Q; lra).
    rewrite <- Zlt_Qlt in *. lia.
Qed.

Lemma m3_setup : forall s c, s_method s = FLOPS ->
  exists st, off_design_setup s (Some (stretched c)) (point3_args s (remaining s / s_payload s)) = Ok st /\
             mission3 s c st.
Proof.
  intros s c M. unfold off_design_setup, point3_args. cbn [o_type o_first o_business o_economy o_pax o_wing o_misc o_cargo o_gross o_fill_cargo o_fill_fuel andb].
  rewrite M.
  set (k := (remaining s / s_payload s)%Q).
  set (L := if zeroQ (Some (s_misc s * k)%Q) then _ else _).
  assert (E : exists l, L = Ok l /\ cargo_free s (s_wing s * k) (s_misc s * k) l).
  { subst L. unfold cargo_free. cbn [zeroQ].
    destruct (Qeq_bool (s_misc s * k) 0) eqn:E1; [apply Qeq_bool_iff in E1|apply Qeq_bool_neq in E1].
    - destruct (Qeq_bool (s_wing s * k) 0) eqn:E2; [apply Qeq_bool_iff in E2|apply Qeq_bool_neq in E2].
      + exists [(DMiscCargo, s_design_gross s * (5 # 100))%Q]. split; [reflexivity|]. tauto.
      + exists [(DWingCargo, s_wing s * k * (11 # 10))%Q]. split; [reflexivity|]. tauto.
    - exists [(DMiscCargo, s_misc s * k * (11 # 10))%Q]. split; [reflexivity|]. tauto. }
  destruct E as (l & -> & F). cbn [rbind app].
  eexists. split; [reflexivity|].
  split; try reflexivity.
  - exists (trunc (s_first s * k)), (trunc (s_business s * k)), (trunc (s_economy s * k)).
    cbn [i_first i_business i_economy i_pax]. fold k.
    repeat (split; [first [reflexivity|apply trunc_whole]|]).
    cbn [truthyZ valZ andb negb].
    destruct (Z.eqb_spec (trunc (s_first s * k)) 0) as [->|], (Z.eqb_spec (trunc (s_business s * k)) 0) as [->|],
      (Z.eqb_spec (trunc (s_economy s * k)) 0) as [->|]; reflexivity.
  - cbn [dvars]. rewrite app_nil_r. exact F.
Qed.

Lemma m3_unique : forall s c st st', mission3 s c st -> mission3 s c st' -> st = st'.
Proof.
  intros s c st st' [A1 A2 A3 A4 A5 A6 A7] [B1 B2 B3 B4 B5 B6 B7].
  destruct A1 as (f&b&e&F&B&E&Wf&Wb&We&P), B1 as (f'&b'&e'&F'&B'&E'&Wf'&Wb'&We'&P').
  assert (f = f') by (eapply whole_unique; eassumption).
  assert (b = b') by (eapply whole_unique; eassumption).
  assert (e = e') by (eapply whole_unique; eassumption). subst f' b' e'.
  assert (D : dvars st = dvars st') by (unfold cargo_free in *; intuition congruence).
  destruct st, st'; cbn in *. congruence.
Qed.

Lemma m4_setup : forall s c fuel,
  exists st, off_design_setup s (Some (stretched c)) (ferry_args s (s_operating s + fuel)%Q) = Ok st /\
             mission4 s c fuel st.
Proof.
  intros s c fuel. unfold off_design_setup, ferry_args.
  cbn [o_type o_first o_business o_economy o_pax o_wing o_misc o_cargo o_gross o_fill_cargo o_fill_fuel andb rbind].
  eexists. split; [reflexivity|].
  split; cbn [i_first i_business i_economy i_pax i_wing i_misc i_cargo i_gross dvars i_cruise]; try reflexivity.
  - intros ->. cbn. tauto.
  - intros ->. cbn. tauto.
Qed.

Lemma m4_unique : forall s c fuel st st', mission4 s c fuel st -> mission4 s c fuel st' -> st = st'.
Proof.
  intros s c fuel st st' [A1 A2 A3 A4 A5] [B1 B2 B3 B4 B5].
  destruct (s_method s).
  - specialize (A1 eq_refl). specialize (B1 eq_refl). destruct st, st'; cbn in *. intuition congruence.
  - specialize (A2 eq_refl). specialize (B2 eq_refl). destruct st, st'; cbn in *. intuition congruence.
Qed.

Definition table (s : sized) (r3 r4 : outcome) : list row :=
  [{| p_payload := s_payload s; p_fuel := 0; p_range := 0 |};
   {| p_payload := s_payload s; p_fuel := s_fuel s; p_range := s_range s |};
   {| p_payload := r_payload r3; p_fuel := r_fuel r3; p_range := r_range r3 |};
   {| p_payload := r_payload r4; p_fuel := r_fuel r4; p_range := r_range r4 |}].

(** The analysis by cases. *)
Lemma run_cases : forall fly quiet s,
  (~ started quiet s /\ run_payload_range fly quiet s = (Ok ANothing, s_cruise s)) \/
  (started quiet s /\ s_eom s = OTHER_EOM /\ run_payload_range fly quiet s = (Ok ANone, s_cruise s)) \/
  (started quiet s /\ s_eom s = ENERGY_STATE /\ s_cruise s = None /\
   run_payload_range fly quiet s = (Err KeyError, None)) \/
  (exists c, started quiet s /\ s_eom s = ENERGY_STATE /\ s_cruise s = Some c /\
   snd (run_payload_range fly quiet s) = Some (stretched c) /\
   ((~ has_room s /\ exists st4, mission4 s c (s_gross s - s_operating s) st4 /\
     fst (run_payload_range fly quiet s) = if r_success (fly st4) then Err UnboundLocalError else Ok ANone) \/
    (has_room s /\ (s_payload s == 0)%Q /\ fst (run_payload_range fly quiet s) = Err ZeroDivisionError) \/
    (has_room s /\ ~ (s_payload s == 0)%Q /\ s_method s = GASP /\ fst (run_payload_range fly quiet s) = Err TypeError) \/
    (has_room s /\ ~ (s_payload s == 0)%Q /\ s_method s = FLOPS /\ exists st3 st4,
     mission3 s c st3 /\ mission4 s c (usable_fuel s) st4 /\
     fst (run_payload_range fly quiet s) =
       if r_success (fly st4) && r_success (fly st3) then Ok (ATable (table s (fly st3) (fly st4))) else Ok ANone))).
Proof.
  intros fly quiet s. unfold run_payload_range.
  assert (S : started quiet s <-> negb (s_success s) && negb quiet = false /\ s_multi_mission s && negb quiet = false).
  { unfold started. destruct quiet, (s_success s), (s_multi_mission s); cbn; intuition discriminate. }
  destruct (negb (s_success s) && negb quiet) eqn:E1; [left; split; [intro K; apply S in K; destruct K; discriminate|reflexivity]|].
  destruct (s_multi_mission s && negb quiet) eqn:E2; [left; split; [intro K; apply S in K; destruct K; discriminate|reflexivity]|].
  right. assert (St : started quiet s) by (apply S; auto). clear S.
  destruct (s_eom s) eqn:EO; [|left; auto].
  right. destruct (s_cruise s) as [c|] eqn:EC; [|left; auto].
  right. exists c. split; [exact St|]. split; [reflexivity|]. split; [reflexivity|].
  replace (match c with Some (lo, hi) => Some (Some (lo, (2 * hi)%Q)) | None => Some None end)
    with (Some (stretched c)) by (destruct c as [[lo hi]|]; reflexivity).
  cbn [fst snd]. split; [reflexivity|].
  change (s_capacity s - s_unusable s)%Q with (usable_fuel s).
  destruct (Qle_bool (s_gross s) (s_operating s + usable_fuel s)) eqn:ER.
  - left. apply Qle_bool_iff in ER. split; [unfold has_room; apply Qle_not_lt; exact ER|].
    destruct (m4_setup s c (s_gross s - s_operating s)%Q) as (st&E&M). exists st. split; [exact M|].
    cbn [rbind fst snd]. unfold off_design. rewrite E. cbn [rbind]. now destruct (r_success (fly st)).
  - right.
    assert (R : has_room s).
    { unfold has_room. apply Qnot_le_lt. intro K. apply Qle_bool_iff in K. congruence. }
    destruct (Qeq_bool (s_payload s) 0) eqn:EP.
    + left. apply Qeq_bool_iff in EP. auto.
    + right. apply Qeq_bool_neq in EP.
      change (s_gross s - s_operating s - usable_fuel s)%Q with (remaining s).
      destruct (s_method s) eqn:EM.
      * right. split; [exact R|]. split; [exact EP|]. split; [reflexivity|].
        destruct (m3_setup s c EM) as (st3&E3&M3). destruct (m4_setup s c (usable_fuel s)) as (st4&E4&M4).
        exists st3, st4. split; [exact M3|]. split; [exact M4|].
        unfold off_design. rewrite E3. cbn [rbind fst snd]. rewrite E4. cbn [rbind].
        destruct (r_success (fly st4)), (r_success (fly st3)); reflexivity.
      * left. split; [exact R|]. split; [exact EP|]. split; [reflexivity|].
        unfold off_design, off_design_setup, point3_args.
        cbn [o_type o_cargo o_fill_cargo o_fill_fuel andb]. rewrite EM. reflexivity.
Qed.

(** Exactly when a table is written, and what it contains. *)
Lemma table_iff : forall fly quiet s rows,
  fst (run_payload_range fly quiet s) = Ok (ATable rows) <->
  started quiet s /\ s_eom s = ENERGY_STATE /\ s_method s = FLOPS /\ has_room s /\ ~ (s_payload s == 0)%Q /\
  exists c st3 st4, s_cruise s = Some c /\ mission3 s c st3 /\ mission4 s c (usable_fuel s) st4 /\
  r_success (fly st3) = true /\ r_success (fly st4) = true /\ rows = table s (fly st3) (fly st4).
Proof.
  intros fly quiet s rows.
  destruct (run_cases fly quiet s) as [(N&E)|[(S&O&E)|[(S&O&C&E)|(c&S&O&C&_&H)]]].
  - rewrite E. cbn. split; [discriminate|tauto].
  - rewrite E. cbn. split; [discriminate|]. intros (_&K&_). congruence.
  - rewrite E. cbn. split; [discriminate|]. intros (_&_&_&_&_&c&st3&st4&K&_). congruence.
  - destruct H as [(R&st4&M4&E)|[(R&P&E)|[(R&P&M&E)|(R&P&M&st3&st4&M3&M4&E)]]].
    + rewrite E. split; [destruct (r_success (fly st4)); discriminate|]. intros (_&_&_&K&_). contradiction.
    + rewrite E. split; [discriminate|]. intros (_&_&_&_&K&_). contradiction.
    + rewrite E. split; [discriminate|]. intros (_&_&K&_). congruence.
    + rewrite E. split.
      * destruct (r_success (fly st4)) eqn:E4, (r_success (fly st3)) eqn:E3; cbn; try discriminate.
        intros [= <-]. repeat (split; [assumption|]). exists c, st3, st4. auto 10.
      * intros (_&_&_&_&_&c'&st3'&st4'&C'&M3'&M4'&E3&E4&->).
        assert (c' = c) by congruence. subst c'.
        rewrite (m3_unique _ _ _ _ M3' M3) in *. rewrite (m4_unique _ _ _ _ _ M4' M4) in *.
        rewrite E3, E4. reflexivity.
Qed.

Lemma whole_le : forall x n, (0 <= x)%Q -> whole_part x n -> (0 <= n)%Z /\ (inject_Z n <= x)%Q /\ (x < inject_Z n + 1)%Q.
Proof.
  intros x n P [A B C|A B C]; [|exfalso; lra].
  split; [|tauto]. assert (inject_Z (-1) < inject_Z n)%Q by (change (inject_Z (-1)) with (-1)%Q; lra).
  rewrite <- Zlt_Qlt in *. lia.
Qed.

(** Payload loaded in mission 3, at [mu] per passenger. *)
Definition loaded (mu : Q) (st : setup) (m : Q) : Prop :=
  exists f b e w c, i_first st = Some f /\ i_business st = Some b /\ i_economy st = Some e /\
  i_wing st = Some w /\ i_misc st = Some c /\
  (m == mu * (inject_Z f + inject_Z b + inject_Z e) + w + c)%Q.

Lemma load_bounds : forall s c st mu m,
  mission3 s c st -> has_room s -> (0 <= mu)%Q -> (0 < s_payload s)%Q ->
  (0 <= s_first s)%Q -> (0 <= s_business s)%Q -> (0 <= s_economy s)%Q ->
  (s_payload s == mu * (s_first s + s_business s + s_economy s) + s_wing s + s_misc s)%Q ->
  loaded mu st m ->
  (m <= remaining s)%Q /\ (remaining s - m <= 3 * mu)%Q /\ (0 < mu -> remaining s - m < 3 * mu)%Q.
Proof.
  intros s c st mu m [A1 A2 A3 _ _ _ _] R U P F0 B0 E0 T (f'&b'&e'&w&g&F&B&E&W&G&Hm).
  destruct A1 as (f&b&e&F1&B1&E1&Wf&Wb&We&_).
  rewrite F in F1. injection F1 as <-. rewrite B in B1. injection B1 as <-. rewrite E in E1. injection E1 as <-.
  rewrite W in A2. injection A2 as ->. rewrite G in A3. injection A3 as ->.
  set (k := (remaining s / s_payload s)%Q) in *.
  assert (K0 : (0 <= k)%Q).
  { subst k. apply Qle_shift_div_l; [exact P|]. unfold remaining, has_room in *. lra. }
  assert (KP : (remaining s == k * s_payload s)%Q) by (subst k; field; intro Z; rewrite Z in P; apply (Qlt_irrefl 0); exact P).
  destruct (whole_le (s_first s * k) f') as (_&f1&f2); [now apply Qmult_le_0_compat|assumption|].
  destruct (whole_le (s_business s * k) b') as (_&b1&b2); [now apply Qmult_le_0_compat|assumption|].
  destruct (whole_le (s_economy s * k) e') as (_&e1&e2); [now apply Qmult_le_0_compat|assumption|].
  assert (KM : (remaining s == mu * ((s_first s * k + s_business s * k) + s_economy s * k) + s_wing s * k + s_misc s * k)%Q).
  { rewrite KP, T. ring. }
  set (X := (s_first s * k + s_business s * k + s_economy s * k)%Q) in *.
  set (N := (inject_Z f' + inject_Z b' + inject_Z e')%Q) in *.
  assert (XN : (N <= X)%Q) by (unfold X, N; lra).
  assert (XN2 : (X < N + 3)%Q) by (unfold X, N; lra).
  rewrite Hm, KM.
  assert (mu * N <= mu * X)%Q by (rewrite (Qmult_comm mu N), (Qmult_comm mu X); now apply Qmult_le_compat_r).
  assert (mu * X <= mu * (N + 3))%Q.
  { rewrite (Qmult_comm mu X), (Qmult_comm mu (N + 3)). apply Qmult_le_compat_r; [lra|exact U]. }
  split; [lra|]. split; [lra|]. intro U'.
  assert (mu * X < mu * (N + 3))%Q.
  { rewrite (Qmult_comm mu X), (Qmult_comm mu (N + 3)). apply Qmult_lt_compat_r; assumption. }
  lra.
Qed.

(** Off-design argument checks. *)
Lemma off_errors : forall s c a,
  (exists e, off_design_setup s c a = Err e) <->
  o_type a = T_SIZING \/ (o_fill_cargo a = true /\ o_fill_fuel a = true) \/
  (o_fill_cargo a = true /\ s_method s = GASP /\ o_cargo a = None).
Proof.
  intros s c a. unfold off_design_setup.
  destruct (o_type a).
  1: split; [tauto|intro; now exists UserWarning].
  all: destruct (o_fill_cargo a), (o_fill_fuel a), (s_method s), (o_cargo a), (o_misc a) as [m|], (o_wing a) as [w|];
    cbn [andb rbind zeroQ];
    repeat match goal with |- context [Qeq_bool ?a ?b] => destruct (Qeq_bool a b) end; cbn [rbind];
    split; try (now eexists; reflexivity); try (now intros [e [=]]);
    try (intros _; auto; fail); try (intuition discriminate); try (intro; eexists; reflexivity).
Qed.
