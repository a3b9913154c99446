(** Specification predicates and lemmas for C22, C23 and C28. *)
From Coq Require Import Reals Lra.
From Verif Require Import Base MissionModel.
Open Scope list_scope.

(** ** Specification: which phases are main, reserve, or neither *)
Definition in_main (p : string * phase_info) : bool :=
  match user_options (snd p) with Some None | Some (Some PFalse) => true | _ => false end.
Definition in_reserve (p : string * phase_info) : bool :=
  match user_options (snd p) with Some (Some PTrue) | Some (Some (POther _)) => true | _ => false end.
Definition has_options (p : string * phase_info) : bool :=
  match user_options (snd p) with Some _ => true | None => false end.
Definition names_of (f : string * phase_info -> bool) (m : dict phase_info) : list string :=
  map fst (filter f m).

(** A main phase stands after a reserve phase. *)
Definition out_of_order (m : dict phase_info) : Prop :=
  exists l1 p l2 q l3, m = l1 ++ p :: l2 ++ q :: l3 /\ in_reserve p = true /\ in_main q = true.

(** ** C22 *)
Lemma fold_lists m st :
  mains (fold_left split_step m st) = mains st ++ names_of in_main m /\
  reserves (fold_left split_step m st) = reserves st ++ names_of in_reserve m.
Proof.
  unfold names_of. revert st. induction m as [|[nm [u]] m IH]; intro st; simpl.
  - now rewrite !app_nil_r.
  - destruct (IH (split_step st (nm, {| user_options := u |}))) as [H1 H2]. rewrite H1, H2.
    unfold split_step, in_main, in_reserve; simpl.
    destruct u as [[[| |n]|]|]; simpl; rewrite <- ?app_assoc; split; reflexivity.
Qed.

Lemma fold_error m st :
  raise_error (fold_left split_step m st) = true <->
  raise_error st = true \/ (start_reserve st = true /\ Exists (fun q => in_main q = true) m) \/ out_of_order m.
Proof.
  revert st. induction m as [|p m IH]; intro st.
  - cbn [fold_left]. split; [tauto|]. intros [H|[[_ H]|H]]; [exact H| |].
    + inversion H.
    + destruct H as (l1 & p & l2 & q & l3 & E & _). now destruct l1.
  - assert (OO : out_of_order (p :: m) <->
                 (in_reserve p = true /\ Exists (fun q => in_main q = true) m) \/ out_of_order m).
    { split.
      - intros (l1 & a & l2 & q & l3 & E & Ha & Hq). destruct l1 as [|b l1]; simpl in E; injection E as -> ->.
        + left. split; [exact Ha|]. apply Exists_exists. exists q. split; [|exact Hq]. apply in_or_app. right. now left.
        + right. now exists l1, a, l2, q, l3.
      - intros [[Hp He]|(l1 & a & l2 & q & l3 & E & Ha & Hq)].
        + apply Exists_exists in He as (q & Hin & Hq). apply in_split in Hin as (l2 & l3 & ->).
          now exists [], p, l2, q, l3.
        + exists (p :: l1), a, l2, q, l3. subst m. easy. }
    cbn [fold_left]. rewrite IH, OO. rewrite Exists_cons.
    destruct p as [nm [u]]. unfold split_step, in_main, in_reserve; simpl.
    destruct u as [[[| |n]|]|]; simpl;
      destruct (start_reserve st) eqn:S; intuition (try discriminate).
Qed.

Lemma split_accepts m : is_ok (separate_reserve_phases m) = true <-> ~ out_of_order m.
Proof.
  unfold separate_reserve_phases. pose proof (fold_error m split_init) as H. simpl in H.
  destruct (raise_error _); simpl; intuition discriminate.
Qed.

Lemma split_rejects m : separate_reserve_phases m = Err ValueError <-> out_of_order m.
Proof.
  unfold separate_reserve_phases. pose proof (fold_error m split_init) as H. simpl in H.
  destruct (raise_error _); simpl; intuition discriminate.
Qed.

Lemma no_main_filter m : (forall q, In q m -> in_main q = false) -> names_of in_main m = [].
Proof.
  unfold names_of. induction m as [|p m IH]; intro H; [reflexivity|]. simpl.
  rewrite (H p) by now left. apply IH. intros q Hq. apply H. now right.
Qed.

Lemma ordered_concat m : ~ out_of_order m ->
  names_of in_main m ++ names_of in_reserve m = names_of has_options m.
Proof.
  induction m as [|p m IH]; intro H; [reflexivity|].
  assert (Hm : ~ out_of_order m).
  { intros (l1 & a & l2 & q & l3 & E & Ha). apply H. exists (p :: l1), a, l2, q, l3. now subst. }
  specialize (IH Hm). unfold names_of in *. simpl.
  destruct (in_reserve p) eqn:R.
  - assert (M : forall q, In q m -> in_main q = false).
    { intros q Hq. destruct (in_main q) eqn:Q; [|reflexivity]. exfalso. apply H.
      apply in_split in Hq as (l2 & l3 & ->). now exists [], p, l2, q, l3. }
    pose proof (no_main_filter m M) as N. unfold names_of in N. rewrite N in IH. simpl in IH.
    assert (P : in_main p = false /\ has_options p = true).
    { unfold in_reserve, in_main, has_options in *. destruct (user_options (snd p)) as [[[| |]|]|]; easy. }
    destruct P as [-> ->]. simpl. rewrite N. simpl. now rewrite IH.
  - assert (P : in_main p = has_options p).
    { unfold in_reserve, in_main, has_options in *. destruct (user_options (snd p)) as [[[| |]|]|]; easy. }
    rewrite P. destruct (has_options p); simpl; now rewrite IH.
Qed.

Lemma split_result m a b : separate_reserve_phases m = Ok (a, b) ->
  a = names_of in_main m /\ b = names_of in_reserve m /\ a ++ b = names_of has_options m.
Proof.
  intro H. assert (A : ~ out_of_order m) by (apply split_accepts; now rewrite H).
  unfold separate_reserve_phases in H. destruct (raise_error _); [discriminate|].
  pose proof (fold_lists m split_init) as [H1 H2]. simpl in H1, H2.
  injection H as <- <-. rewrite H1, H2. split; [reflexivity|]. split; [reflexivity|]. now apply ordered_concat.
Qed.

Lemma split_ok m : ~ out_of_order m ->
  separate_reserve_phases m = Ok (names_of in_main m, names_of in_reserve m).
Proof.
  intro H. apply split_accepts in H. destruct (separate_reserve_phases m) as [[a b]|e] eqn:E; [|discriminate].
  now destruct (split_result _ _ _ E) as (-> & -> & _).
Qed.

(** ** C23 *)
Lemma names_disjoint m x : NoDup (dkeys m) ->
  In x (names_of in_main m) -> In x (names_of in_reserve m) -> False.
Proof.
  unfold names_of, dkeys. intros ND H1 H2.
  apply in_map_iff in H1 as ([n1 i1] & E1 & F1). apply in_map_iff in H2 as ([n2 i2] & E2 & F2).
  simpl in *. subst. apply filter_In in F1 as [I1 M1]. apply filter_In in F2 as [I2 M2].
  pose proof (dget_NoDup_In _ _ _ ND I1) as G1. pose proof (dget_NoDup_In _ _ _ ND I2) as G2.
  rewrite G1 in G2. injection G2 as ->.
  unfold in_main, in_reserve in *; simpl in *. destruct (user_options i2) as [[[| |]|]|]; discriminate.
Qed.

Lemma names_NoDup f m : NoDup (dkeys m) -> NoDup (names_of f m).
Proof.
  unfold names_of, dkeys. induction m as [|p m IH]; simpl; [constructor|].
  intro ND. inversion ND as [|? ? Hn Hd]; subst. destruct (f p); simpl; [|now apply IH].
  constructor; [|now apply IH]. intro H. apply Hn. apply in_map_iff in H as (q & E & F).
  apply filter_In in F as [F _]. rewrite <- E. now apply in_map.
Qed.

Lemma last_In {A} (l : list A) d : l <> [] -> In (last l d) l.
Proof.
  induction l as [|a l IH]; [tauto|]. intros _. destruct l as [|b l]; [now left|]. right. apply IH. discriminate.
Qed.

Lemma last_indep {A} (l : list A) d d' : l <> [] -> last l d = last l d'.
Proof.
  induction l as [|a l IH]; [tauto|]. intros _. destruct l as [|b l]; [reflexivity|].
  change (last (b :: l) d = last (b :: l) d'). apply IH. discriminate.
Qed.

Definition final_targets (mo : bool) : list target := TBurnedFinal :: (if mo then [TMarginFinal] else []).

(** Shape of the connection list in the three cases. *)
Lemma bus_none mo m m0 mt :
  NoDup (dkeys m) -> ~ out_of_order m -> names_of in_main m = m0 :: mt -> names_of in_reserve m = [] ->
  exists b, post_mission_bus mo m = Ok b /\
    connections b = map (fun t => (last (m0 :: mt) m0, (-1)%Z, t)) (final_targets mo).
Proof.
  intros ND H M R. unfold post_mission_bus. rewrite (split_ok m H), M, R. simpl rbind.
  eexists. split; [reflexivity|]. unfold connections. simpl. now rewrite app_nil_r.
Qed.

Lemma bus_one mo m m0 mt r0 :
  NoDup (dkeys m) -> ~ out_of_order m -> names_of in_main m = m0 :: mt -> names_of in_reserve m = [r0] ->
  exists b, post_mission_bus mo m = Ok b /\
    connections b = map (fun t => (last (m0 :: mt) m0, (-1)%Z, t)) (final_targets mo)
                    ++ [(r0, (-1)%Z, TReserveFinal)].
Proof.
  intros ND H M R. unfold post_mission_bus. rewrite (split_ok m H), M, R. cbn [rbind].
  assert (N : r0 <> last (m0 :: mt) m0).
  { intro E. apply (names_disjoint m r0 ND); [rewrite M, E; now apply last_In|rewrite R; now left]. }
  eexists. split; [reflexivity|]. remember (last (m0 :: mt) m0) as z.
  unfold connections. simpl. apply String.eqb_neq in N. rewrite N. simpl. rewrite N.
  simpl. rewrite String.eqb_refl. simpl. reflexivity.
Qed.

Lemma bus_many mo m m0 mt r0 r1 rt :
  NoDup (dkeys m) -> ~ out_of_order m -> names_of in_main m = m0 :: mt ->
  names_of in_reserve m = r0 :: r1 :: rt ->
  exists b, post_mission_bus mo m = Ok b /\
    connections b = map (fun t => (last (m0 :: mt) m0, (-1)%Z, t)) (final_targets mo)
                    ++ [(r0, 0%Z, TReserveInitial); (last (r1 :: rt) r1, (-1)%Z, TReserveFinal)].
Proof.
  intros ND H M R. unfold post_mission_bus. rewrite (split_ok m H), M, R. cbn [rbind].
  assert (N : r0 <> last (m0 :: mt) m0).
  { intro E. apply (names_disjoint m r0 ND); [rewrite M, E; now apply last_In|rewrite R; now left]. }
  assert (L : last (r0 :: r1 :: rt) r0 = last (r1 :: rt) r1).
  { change (last (r0 :: r1 :: rt) r0) with (last (r1 :: rt) r0). apply last_indep. discriminate. }
  rewrite L. set (lr := last (r1 :: rt) r1) in *.
  assert (I : In lr (r1 :: rt)) by (now apply last_In).
  assert (N2 : lr <> last (m0 :: mt) m0).
  { intro E. apply (names_disjoint m lr ND); [rewrite M, E; now apply last_In|rewrite R; now right]. }
  assert (N3 : lr <> r0).
  { pose proof (names_NoDup in_reserve m ND) as D. rewrite R in D. inversion D; subst. intro E. rewrite <- E in H2. tauto. }
  eexists. split; [reflexivity|]. remember (last (m0 :: mt) m0) as z. clearbody lr.
  apply String.eqb_neq in N, N2, N3.
  unfold connections. simpl. rewrite N. simpl. rewrite N2. simpl. rewrite N3. simpl. reflexivity.
Qed.

Lemma bus_no_main mo m : ~ out_of_order m -> names_of in_main m = [] -> post_mission_bus mo m = Err IndexError.
Proof. intros H M. unfold post_mission_bus. now rewrite (split_ok m H), M. Qed.

Lemma bus_disordered mo m : out_of_order m -> post_mission_bus mo m = Err ValueError.
Proof. intro H. unfold post_mission_bus. apply split_rejects in H. now rewrite H. Qed.

(** Number of reserve phases is at least two iff both ends are connected. *)
Lemma both_ends_iff mo m b : NoDup (dkeys m) -> post_mission_bus mo m = Ok b ->
  (exists p q i j, In (p, i, TReserveInitial) (connections b) /\ In (q, j, TReserveFinal) (connections b)) <->
  2 <= length (names_of in_reserve m).
Proof.
  intros ND E.
  assert (H : ~ out_of_order m) by (intro O; rewrite (bus_disordered mo m O) in E; discriminate).
  destruct (names_of in_main m) as [|m0 mt] eqn:M.
  { rewrite (bus_no_main mo m H M) in E. discriminate. }
  assert (NI : forall p i t, In (p, i, t) (map (fun t => (last (m0 :: mt) m0, (-1)%Z, t)) (final_targets mo)) ->
                             t = TBurnedFinal \/ t = TMarginFinal).
  { intros p i t I. apply in_map_iff in I as (u & Eu & Iu). injection Eu as _ _ ->. unfold final_targets in Iu.
    destruct mo; simpl in Iu; intuition. }
  destruct (names_of in_reserve m) as [|r0 [|r1 rt]] eqn:R.
  - destruct (bus_none mo m m0 mt ND H M R) as (b' & E' & C). rewrite E in E'. injection E' as <-. rewrite C.
    split; [|simpl; lia]. intros (p & q & i & j & I & _). apply NI in I. now destruct I.
  - destruct (bus_one mo m m0 mt r0 ND H M R) as (b' & E' & C). rewrite E in E'. injection E' as <-. rewrite C.
    split; [|simpl; lia]. intros (p & q & i & j & I & _). apply in_app_or in I as [I|I].
    + apply NI in I. now destruct I.
    + simpl in I. destruct I as [I|[]]. discriminate.
  - destruct (bus_many mo m m0 mt r0 r1 rt ND H M R) as (b' & E' & C). rewrite E in E'. injection E' as <-. rewrite C.
    split; [simpl; lia|]. intros _. exists r0, (last (r1 :: rt) r1), 0%Z, (-1)%Z.
    split; apply in_or_app; right; simpl; auto.
Qed.

(** ** C28 *)
Local Open Scope R_scope.

Definition first_mass (ts : list R) : option R := nth_error ts 0.
Definition last_mass (ts : list R) : option R := nth_error ts (length ts - 1).

Lemma pick_first ts : pick ts 0 = first_mass ts.
Proof. unfold pick, first_mass. simpl. reflexivity. Qed.

Lemma pick_last ts : pick ts (-1) = last_mass ts.
Proof.
  unfold pick, last_mass. simpl.
  destruct ts as [|a ts]; [reflexivity|].
  destruct (_ <? 0)%Z eqn:E; [apply Z.ltb_lt in E; cbn [length] in E; lia|].
  f_equal. cbn [length]. lia.
Qed.

Lemma margin_on_false x : margin_on x = false <-> margin x = 0.
Proof. unfold margin_on. destruct (Req_EM_T (margin x) 0); intuition discriminate. Qed.

(** Two or more reserve phases. *)
Lemma balance_many dflt m series x m0 mt r0 r1 rt mf ri rf :
  NoDup (dkeys m) -> ~ out_of_order m -> names_of in_main m = m0 :: mt ->
  names_of in_reserve m = r0 :: r1 :: rt ->
  last_mass (series (last (m0 :: mt) m0)) = Some mf ->
  first_mass (series r0) = Some ri -> last_mass (series (last (r1 :: rt) r1)) = Some rf ->
  exists o, run_fuel dflt m series x = Ok o /\
    fuel_mass o = gross_mass x - mf /\ reserve_fuel o = ri - rf /\
    total_reserve o = margin x / 100 * (gross_mass x - mf) + additional x + (ri - rf) /\
    block_fuel o = gross_mass x - mf + taxi_in x /\
    excess_capacity o = max_capacity x - unusable x - total_fuel x /\
    mass_residual o = total_fuel x - fuel_mass o - total_reserve o.
Proof.
  intros ND H M R Hm Hi Hf. unfold run_fuel. rewrite (split_ok m H), M, R. cbn [rbind fst snd].
  destruct (bus_many (margin_on x) m m0 mt r0 r1 rt ND H M R) as (b & -> & C). cbn [rbind]. rewrite C.
  eexists. split; [reflexivity|]. unfold fuel_group, input_value. cbn [fuel_mass reserve_fuel total_reserve block_fuel excess_capacity mass_residual].
  remember (last (m0 :: mt) m0) as z. remember (last (r1 :: rt) r1) as lr.
  destruct (margin_on x) eqn:MO; cbn [final_targets map app find target_eqb snd];
    rewrite ?pick_first, ?pick_last, Hm, Hi, Hf.
  - intuition lra.
  - apply margin_on_false in MO. rewrite MO. intuition lra.
Qed.

(** No reserve phase. *)
Lemma balance_none dflt m series x m0 mt mf :
  NoDup (dkeys m) -> ~ out_of_order m -> names_of in_main m = m0 :: mt ->
  names_of in_reserve m = [] ->
  last_mass (series (last (m0 :: mt) m0)) = Some mf ->
  exists o, run_fuel dflt m series x = Ok o /\
    fuel_mass o = gross_mass x - mf /\ reserve_fuel o = 0 /\
    total_reserve o = margin x / 100 * (gross_mass x - mf) + additional x /\
    block_fuel o = gross_mass x - mf + taxi_in x /\
    excess_capacity o = max_capacity x - unusable x - total_fuel x /\
    mass_residual o = total_fuel x - fuel_mass o - total_reserve o.
Proof.
  intros ND H M R Hm. unfold run_fuel. rewrite (split_ok m H), M, R. cbn [rbind fst snd].
  destruct (bus_none (margin_on x) m m0 mt ND H M R) as (b & -> & C). cbn [rbind]. rewrite C.
  eexists. split; [reflexivity|]. unfold fuel_group, input_value. cbn [fuel_mass reserve_fuel total_reserve block_fuel excess_capacity mass_residual].
  remember (last (m0 :: mt) m0) as z.
  destruct (margin_on x) eqn:MO; cbn [final_targets map app find target_eqb snd];
    rewrite ?pick_last, Hm.
  - intuition lra.
  - apply margin_on_false in MO. rewrite MO. intuition lra.
Qed.

(** Exactly one reserve phase: its initial mass never enters. *)
Lemma balance_one dflt m series x m0 mt r0 mf rf :
  NoDup (dkeys m) -> ~ out_of_order m -> names_of in_main m = m0 :: mt ->
  names_of in_reserve m = [r0] ->
  last_mass (series (last (m0 :: mt) m0)) = Some mf -> last_mass (series r0) = Some rf ->
  exists o, run_fuel dflt m series x = Ok o /\ reserve_fuel o = dflt - rf.
Proof.
  intros ND H M R Hm Hf. unfold run_fuel. rewrite (split_ok m H), M, R. cbn [rbind fst snd].
  destruct (bus_one (margin_on x) m m0 mt r0 ND H M R) as (b & -> & C). cbn [rbind]. rewrite C.
  eexists. split; [reflexivity|]. unfold fuel_group, input_value. cbn [reserve_fuel].
  remember (last (m0 :: mt) m0) as z.
  destruct (margin_on x) eqn:MO; cbn [final_targets map app find target_eqb snd];
    rewrite ?pick_first, ?pick_last, Hf; reflexivity.
Qed.

Lemma run_no_main dflt m series x : ~ out_of_order m -> names_of in_main m = [] ->
  run_fuel dflt m series x = Err ValueError.
Proof. intros H M. unfold run_fuel. rewrite (split_ok m H), M. reflexivity. Qed.

Lemma run_disordered dflt m series x : out_of_order m -> run_fuel dflt m series x = Err ValueError.
Proof. intro H. unfold run_fuel. apply split_rejects in H. now rewrite H. Qed.

(** Residual zero iff loaded fuel equals burned plus reserves; capacity and residual together. *)
Lemma residual_meaning dflt m series x o : run_fuel dflt m series x = Ok o ->
  (mass_residual o = 0 <-> total_fuel x = fuel_mass o + total_reserve o) /\
  (mass_residual o = 0 -> (0 <= excess_capacity o <-> fuel_mass o + total_reserve o + unusable x <= max_capacity x)) /\
  total_reserve o = margin_mass o + additional x + reserve_fuel o /\
  block_fuel o - fuel_mass o = taxi_in x.
Proof.
  unfold run_fuel. destruct (separate_reserve_phases m) as [[a b]|]; [|discriminate]. cbn [rbind fst snd].
  destruct a; [discriminate|]. destruct (post_mission_bus _ m); [|discriminate]. cbn [rbind]. intros [= <-].
  unfold fuel_group. cbn [mass_residual total_reserve fuel_mass excess_capacity block_fuel margin_mass reserve_fuel].
  repeat split; intros; try lra.
Qed.

Lemma run_rejects dflt m series x : out_of_order m \/ names_of in_main m = [] ->
  run_fuel dflt m series x = Err ValueError.
Proof.
  intros [H|H]; [now apply run_disordered|].
  destruct (separate_reserve_phases m) as [[a b]|e] eqn:E.
  - apply run_no_main; [|exact H]. apply split_accepts. now rewrite E.
  - apply run_disordered. unfold separate_reserve_phases in E.
    pose proof (fold_error m split_init) as F. simpl in F. destruct (raise_error _); [|discriminate].
    intuition discriminate.
Qed.

Lemma feasible_meaning dflt m series x o ignore : run_fuel dflt m series x = Ok o -> mass_residual o = 0 ->
  (capacity_feasible ignore o <-> ignore = true \/ fuel_mass o + total_reserve o + unusable x <= max_capacity x).
Proof.
  intros H Z. destruct (residual_meaning _ _ _ _ _ H) as (_ & A & _). specialize (A Z).
  unfold capacity_feasible. destruct ignore; [tauto|]. rewrite A. intuition discriminate.
Qed.
