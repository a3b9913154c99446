(** C59, second part: storing the assignments of a deck. *)
From Coq Require Import Ascii QArith Lia.
From Verif Require Import Base CsvModel CsvProofs StrModel ForModel ForProofs ForProps.
Open Scope list_scope.
Open Scope nat_scope.

(** the values between the commas of a text; empty ones do not count *)
Lemma pieces_words l : l <> [] -> Forall word l -> filter nonempty (split_on is_comma [] (commas l)) = l.
Proof.
  intros N F. assert (Fc : Forall (free_of is_comma) l) by (eapply Forall_impl; [|exact F]; intros s Hs; now apply word_comma).
  pose proof (split_commas l [] N Fc (fun c (H : In c []) => match H with end)) as E. rewrite !app_nil_r in E. rewrite E.
  rewrite removelast_last by exact N. apply filter_id. intros s Hs. rewrite Forall_forall in F. destruct (F s Hs) as [Ns _].
  now destruct s.
Qed.
Lemma match_names_key key names var : forall ind k, In k (fst (match_names key names var ind)) -> k = key.
Proof.
  induction names as [|n names IH]; intros ind k; cbn; [intros []|]. destruct (ends_with (lower n) (lower var)); cbn.
  - intros [<-|H]; [reflexivity|now apply IH in H].
  - destruct ind as [i|]; [|apply IH]. destruct (ends_with _ _); cbn; [intros [<-|H]; [reflexivity|now apply IH in H]|apply IH].
Qed.
Lemma match_keys_key alternate var : forall ind k, In k (fst (match_keys alternate var ind)) -> In k (map fst alternate).
Proof.
  induction alternate as [|[key ns] r IH]; intros ind k; cbn; [intros []|]. rewrite in_app_iff. intros [H|H].
  - left. now apply match_names_key in H.
  - right. eapply IH. exact H.
Qed.

Section Process.
  Variables (core : str -> option str) (valid_units : str -> bool) (deprecated : str -> res bool)
    (alternate : list (str * list str)) (defaults : str -> option str) (guess_names : list str) (gasp : bool)
    (to_float : option data -> res Q).
  Notation store_name := (ForModel.store_name core defaults guess_names gasp to_float).
  Notation store_names := (ForModel.store_names core defaults guess_names gasp to_float).
  Notation process := (ForModel.process core valid_units deprecated alternate defaults guess_names gasp to_float).

  Definition is_guess (k : str) : bool := (mem_str k guess_names && gasp)%bool.
  Definition known (k : str) (v : vehicle) : Prop := aget k (inputs v) <> None \/ aget k (unused v) <> None.

  Lemma store_name_spec n var skip vals u ind k v v' u' : store_name n var skip vals u ind k v = Ok (v', u') ->
    (forall k2, k2 <> k -> aget k2 (inputs v') = aget k2 (inputs v) /\ aget k2 (unused v') = aget k2 (unused v)) /\
    (forall k2, known k2 v -> known k2 v') /\ (is_guess k = false -> known k v') /\
    (is_guess k = false -> skip = false -> core k <> None -> aget k (inputs v') <> None) /\
    (is_guess k = false -> guesses v' = guesses v) /\
    (core k = None -> inputs v' = inputs v).
  Proof.
    unfold ForModel.store_name, is_guess.
    assert (U : forall w, rbind (set_value core k vals w (unused v) ind) (fun d => Ok ({| inputs := inputs v; unused := d; guesses := guesses v |}, w)) = Ok (v', u') ->
      (forall k2, k2 <> k -> aget k2 (inputs v') = aget k2 (inputs v) /\ aget k2 (unused v') = aget k2 (unused v)) /\
      (forall k2, known k2 v -> known k2 v') /\ known k v' /\ guesses v' = guesses v /\ inputs v' = inputs v).
    { intros w Q. destruct (set_value core k vals w (unused v) ind) as [d|] eqn:E; [|discriminate]. injection Q as <- <-. cbn.
      apply set_value_other in E as [E1 E2]. split; [intros k2 N; split; [reflexivity|now apply E2]|]. split.
      - intros k2 [K|K]; [now left|]. right. cbn. destruct (list_eq_dec ascii_dec k2 k) as [->|N]; [exact E1|now rewrite E2].
      - split; [right; exact E1|]. split; reflexivity. }
    destruct skip.
    { intro Q. apply U in Q as (Q1 & Q2 & Q3 & Q4 & Q5). split; [exact Q1|]. split; [exact Q2|]. split; [auto|]. split; [discriminate|]. split; auto. }
    destruct (mem_str k guess_names && gasp)%bool.
    { destruct vals as [|x vals]; [discriminate|]. destruct (to_float x) as [q|]; [|discriminate]. cbn [rbind]. intro Q. injection Q as <- <-.
      cbn. split; [auto|]. split; [auto|]. split; [discriminate|]. split; [discriminate|]. split; [discriminate|reflexivity]. }
    destruct (core k) as [c|] eqn:C.
    - set (w := match defaults (full n var) with Some u => u | None => [] end). intro Q.
      destruct (set_value core k vals w (inputs v) ind) as [d|] eqn:E; [|discriminate]. injection Q as <- <-. cbn.
      apply set_value_other in E as [E1 E2]. split; [intros k2 N; split; [now apply E2|reflexivity]|]. split.
      + intros k2 [K|K]; [|now right]. left. cbn. destruct (list_eq_dec ascii_dec k2 k) as [->|N]; [exact E1|now rewrite E2].
      + split; [intros _; left; exact E1|]. split; [auto|]. split; [reflexivity|discriminate].
    - intro Q. apply U in Q as (Q1 & Q2 & Q3 & Q4 & Q5). split; [exact Q1|]. split; [exact Q2|]. split; [auto|]. split; [congruence|]. split; auto.
  Qed.

  Lemma store_names_spec n var skip vals ind : forall names u v v', store_names n var skip vals u ind names v = Ok v' ->
    (forall k, ~ In k names -> aget k (inputs v') = aget k (inputs v) /\ aget k (unused v') = aget k (unused v)) /\
    (forall k, known k v -> known k v') /\ (forall k, In k names -> is_guess k = false -> known k v') /\
    ((forall k, In k names -> is_guess k = false) -> guesses v' = guesses v) /\
    ((forall k, In k names -> core k = None) -> inputs v' = inputs v).
  Proof.
    induction names as [|k names IH]; intros u v v' H.
    - injection H as <-. split; [auto|]. split; [auto|]. split; [intros k []|]. split; reflexivity.
    - cbn [ForModel.store_names] in H. destruct (store_name n var skip vals u ind k v) as [[v1 u1]|] eqn:E; [|discriminate]. cbn in H.
      apply store_name_spec in E as (E1 & E2 & E3 & E4 & E5 & E6). apply IH in H as (H1 & H2 & H3 & H4 & H5).
      split; [intros k2 N; destruct (H1 k2) as [-> ->]; [intro Q; apply N; now right|]; apply E1; intros ->; apply N; now left|].
      split; [auto|]. split; [intros k2 [<-|Hk] G; auto|].
      split; [intro G; rewrite H4 by (intros; apply G; now right); apply E5; apply G; now left|].
      intro G. rewrite H5 by (intros; apply G; now right). apply E6. apply G. now left.
  Qed.

  (** the parts of an assignment *)
  Definition pieces (d : str) : list str := filter nonempty (split_on is_comma [] d).
  Definition values (l : list str) : list (option data) := map (fun s => Some (convert s)) l.
  Definition offset (namelist : str) (ind : option Z) : option Z :=
    match ind with Some i => Some (match namelist with [] => i | _ => i - 1 end)%Z | None => None end.
  Lemma process_unfold n var d v names ind : deprecated (full n var) = Ok false -> update_name alternate (full n var) = Ok (names, ind) ->
    full n var <> lit "INPROP.GR" ->
    process n var d v = match rev (pieces d) with
      | [] => store_names n var true [] [] (offset n ind) names v
      | u :: _ => if valid_units u then store_names n var false (values (removelast (pieces d))) u (offset n ind) names v
                  else store_names n var false (values (pieces d)) [] (offset n ind) names v
      end.
  Proof.
    intros D U G. unfold ForModel.process. rewrite D. cbn [rbind]. rewrite U. cbn [rbind fst snd].
    apply str_eqb_neq in G. rewrite G. unfold pieces, values, offset. destruct (rev _) as [|u r]; [reflexivity|]. destruct (valid_units u); reflexivity.
  Qed.
  Lemma process_cases n var d v v' names ind : process n var d v = Ok v' -> update_name alternate (full n var) = Ok (names, ind) ->
    v' = v /\ deprecated (full n var) = Ok true \/
    deprecated (full n var) = Ok false /\ full n var <> lit "INPROP.GR" /\
    exists skip vals u, store_names n var skip vals u (offset n ind) names v = Ok v'.
  Proof.
    intros H U. destruct (deprecated (full n var)) as [[]|] eqn:D.
    - left. unfold ForModel.process in H. rewrite D in H. injection H as <-. split; reflexivity.
    - right. destruct (str_eqb (full n var) (lit "INPROP.GR")) eqn:G.
      { unfold ForModel.process in H. rewrite D in H. cbn [rbind] in H. rewrite U in H. cbn [rbind] in H. rewrite G in H.
        destruct (rev _) as [|x l]; [discriminate|]. destruct (valid_units x); discriminate. }
      apply str_eqb_neq in G. rewrite (process_unfold n var d v names ind D U G) in H. split; [reflexivity|]. split; [exact G|].
      destruct (rev (pieces d)) as [|u0 r0]; [eauto|]. destruct (valid_units u0); eauto.
    - unfold ForModel.process in H. rewrite D in H. discriminate.
  Qed.
  Lemma process_names n var d v v' : process n var d v = Ok v' -> deprecated (full n var) = Ok true \/
    exists names ind, update_name alternate (full n var) = Ok (names, ind).
  Proof.
    unfold ForModel.process. destruct (deprecated (full n var)) as [[]|]; [now left| |discriminate]. cbn [rbind]. intro H. right.
    destruct (update_name alternate (full n var)) as [[names ind]|]; [eauto|]. exfalso. destruct (rev _) as [|x l]; [discriminate|].
    destruct (valid_units x); discriminate.
  Qed.

  (** Every assignment is kept: each variable it stands for has a value afterwards, among the inputs or the unused values;
      all other variables are untouched.  Only names that contain a deprecated name are dropped. *)
Theorem C59_kept n var d v v' names ind : process n var d v = Ok v' -> update_name alternate (full n var) = Ok (names, ind) ->
    (forall k, ~ In k names -> aget k (inputs v') = aget k (inputs v) /\ aget k (unused v') = aget k (unused v)) /\
    (forall k, known k v -> known k v') /\
    (deprecated (full n var) = Ok false -> forall k, In k names -> is_guess k = false -> known k v').
  Proof.
    intros H U. destruct (process_cases _ _ _ _ _ _ _ H U) as [[-> D]|(D & G & skip & vals & u & S)].
    - split; [auto|]. split; [auto|]. congruence.
    - apply store_names_spec in S as (S1 & S2 & S3 & _). auto.
  Qed.

  (** *** The last assignment counts *)
  Definition sound (o : option (list (option data) * str)) : Prop :=
    match o with Some ([], _) | Some (Some (DBool _) :: _, _) => False | Some (_, []) => False | _ => True end.
  Lemma store_names_set n var vals k c : core k = Some c -> is_guess k = false -> vals <> [] ->
    match vals with Some (DBool _) :: _ => False | _ => True end ->
    forall names u v v', store_names n var false vals u None names v = Ok v' -> sound (aget k (inputs v)) ->
    sound (aget k (inputs v')) /\
    (In k names \/ (exists w, aget k (inputs v) = Some (vals, w)) -> exists w, aget k (inputs v') = Some (vals, w)).
  Proof.
    intros C G Nv Hb. induction names as [|k1 names IH]; intros u v v' H S.
    - injection H as <-. split; [exact S|]. intros [[]|K]. exact K.
    - cbn [ForModel.store_names] in H. destruct (store_name n var false vals u None k1 v) as [[v1 u1]|] eqn:E; [|discriminate]. cbn in H.
      destruct (list_eq_dec ascii_dec k1 k) as [->|N].
      + unfold ForModel.store_name in E. unfold is_guess in G. rewrite G, C in E.
        set (w := match defaults (full n var) with Some u => u | None => [] end) in E.
        destruct (C59_whole core k vals w (inputs v)) as (d' & u' & W1 & W2 & W3 & _).
        { intros l u' Q. rewrite Q in S. cbn in S. destruct l as [|[[]|] l]; try contradiction; destruct u'; try contradiction; split; try discriminate; exact I. }
        rewrite W1 in E. injection E as <- <-. cbn in H.
        assert (S1 : sound (Some (vals, u'))). { destruct vals as [|[[]|] vs]; try congruence; try contradiction; destruct u'; try congruence; exact I. }
        destruct (IH _ _ _ H) as [I1 I2]; [cbn; rewrite W2; exact S1|]. split; [exact I1|]. intros _. apply I2. right. exists u'. exact W2.
      + apply store_name_spec in E as (E1 & _). destruct (E1 k) as [E1' _]; [congruence|]. rewrite <- E1' in *.
        destruct (IH _ _ _ H S) as [I1 I2]. split; [exact I1|]. intros [[Q|K]|K]; [congruence|apply I2; now left|apply I2; now right].
  Qed.

  Definition names_of (n var : str) : list str :=
    match update_name alternate (full n var) with Ok m => fst m | Err _ => [] end.
  Lemma run_frame k : forall es v v', (forall n var d, In (n, var, d) es -> deprecated (full n var) = Ok true \/ ~ In k (names_of n var)) ->
    run process es v = Ok v' -> aget k (inputs v') = aget k (inputs v).
  Proof.
    induction es as [|[[n var] d] es IH]; intros v v' F H; [now injection H as <-|]. cbn [run] in H.
    destruct (process n var d v) as [v1|] eqn:E; [|discriminate]. rewrite (IH v1 v') by (eauto; intros; eapply F; right; eauto).
    destruct (F n var d (or_introl eq_refl)) as [D|N].
    - unfold ForModel.process in E. rewrite D in E. now injection E as <-.
    - destruct (process_names _ _ _ _ _ E) as [D|(names & ind & U)].
      + unfold ForModel.process in E. rewrite D in E. now injection E as <-.
      + unfold names_of in N. rewrite U in N. apply (C59_kept _ _ _ _ _ _ _ E U). exact N.
  Qed.

  (** An input variable has the values of the last assignment that stands for it. *)
Theorem C59_last_wins before n var vals later k c v v' names :
    run process (before ++ (n, var, commas vals) :: later) v = Ok v' ->
    deprecated (full n var) = Ok false -> update_name alternate (full n var) = Ok (names, None) -> In k names ->
    core k = Some c -> is_guess k = false ->
    vals <> [] -> Forall word vals -> valid_units (last vals []) = false -> (forall b, convert (hd [] vals) <> DBool b) ->
    (forall v1, run process before v = Ok v1 -> sound (aget k (inputs v1))) ->
    (forall n var d, In (n, var, d) later -> deprecated (full n var) = Ok true \/ ~ In k (names_of n var)) ->
    exists u, aget k (inputs v') = Some (values vals, u).
  Proof.
    intros H D U K C G Nv W VU Hb S L. rewrite run_app in H. destruct (run process before v) as [v1|] eqn:E1; [|discriminate].
    cbn [rbind] in H. cbn [run] in H. destruct (process n var (commas vals) v1) as [v2|] eqn:E2; [|discriminate].
    rewrite (run_frame k later v2 v' L H). specialize (S v1 eq_refl).
    assert (NG : full n var <> lit "INPROP.GR").
    { intro Q. unfold ForModel.process in E2. rewrite D in E2. cbn [rbind] in E2. rewrite U in E2. cbn [rbind] in E2. rewrite Q, str_eqb_refl in E2.
      destruct (rev _) as [|x l]; [discriminate|]. destruct (valid_units x); discriminate. }
    rewrite (process_unfold _ _ _ _ _ _ D U NG) in E2. unfold pieces in E2. rewrite (pieces_words vals Nv W) in E2.
    destruct (rev vals) as [|x r] eqn:R.
    { exfalso. apply Nv. rewrite <- (rev_involutive vals), R. reflexivity. }
    assert (X : x = last vals []). { rewrite <- (rev_involutive vals), R. cbn. now rewrite last_last. }
    rewrite X, VU in E2. cbn [offset] in E2.
    destruct (store_names_set n var (values vals) k c C G) with (3 := E2) as [_ I2].
    - unfold values. intro Q. apply map_eq_nil in Q. contradiction.
    - destruct vals as [|x0 vals]; [exact I|]. cbn. specialize (Hb). cbn in Hb. destruct (convert x0) eqn:Cx; try exact I. exact (Hb b eq_refl).
    - exact S.
    - apply I2. now left.
  Qed.

  (** *** Units of the deck *)
  Lemma store_names_units n var vals ind : forall names u u' v, (forall k, In k names -> core k <> None /\ is_guess k = false) ->
    store_names n var false vals u ind names v = store_names n var false vals u' ind names v.
  Proof.
    induction names as [|k names IH]; intros u u' v H; [reflexivity|]. cbn [ForModel.store_names].
    assert (E : store_name n var false vals u ind k v = store_name n var false vals u' ind k v).
    { unfold ForModel.store_name. destruct (H k (or_introl eq_refl)) as [C G]. unfold is_guess in G. rewrite G.
      destruct (core k); [reflexivity|congruence]. }
    rewrite E. reflexivity.
  Qed.
  (** Units written behind the values of an input variable have no effect: the values are taken in the default units. *)
Theorem C59_units_refuted n var vals u v names ind : deprecated (full n var) = Ok false ->
    update_name alternate (full n var) = Ok (names, ind) -> full n var <> lit "INPROP.GR" ->
    (forall k, In k names -> core k <> None /\ is_guess k = false) ->
    vals <> [] -> Forall word vals -> word u -> valid_units u = true -> valid_units (last vals []) = false ->
    process n var (commas (vals ++ [u])) v = process n var (commas vals) v.
  Proof.
    intros D U G H Nv W Wu Vu Vl. rewrite !(process_unfold _ _ _ _ _ _ D U G). unfold pieces.
    rewrite (pieces_words vals Nv W), (pieces_words (vals ++ [u])).
    - rewrite rev_app_distr. cbn [rev app]. rewrite Vu. rewrite removelast_app by discriminate. cbn [removelast]. rewrite app_nil_r.
      destruct (rev vals) as [|x r] eqn:R.
      { exfalso. apply Nv. rewrite <- (rev_involutive vals), R. reflexivity. }
      assert (X : x = last vals []). { rewrite <- (rev_involutive vals), R. cbn. now rewrite last_last. }
      rewrite X, Vl. now apply store_names_units.
    - intro Q. now apply app_eq_nil in Q as [_ Q].
    - apply Forall_app. split; [exact W|]. constructor; [exact Wu|constructor].
  Qed.

  (** *** Names outside of namelists *)
  (** The documented use of an Aviary name outside of all namelists never sets an input. *)
Theorem C59_free_names_refuted var d v v' : ~ In "("%char var -> core (full [] var) = None ->
    (forall k ns n, In (k, ns) alternate -> In n ns -> ~ suffix (lower (full [] var)) (lower n)) ->
    process [] var d v = Ok v' -> inputs v' = inputs v.
  Proof.
    intros N C H P. destruct (C59_names alternate (full [] var)) as (names & U & Q).
    { cbn. intros [Q|Q]; [discriminate|contradiction]. }
    assert (Nm : forall k, In k names -> k = full [] var).
    { intros k Hk. destruct Q as [Q|[-> _]]; [|destruct Hk as [<-|[]]; reflexivity].
      apply Q in Hk as (ns & n & H1 & H2 & H3). elim (H k ns n H1 H2 H3). }
    destruct (process_cases _ _ _ _ _ _ _ P U) as [[-> _]|(_ & _ & skip & vals & u & S)]; [reflexivity|].
    apply store_names_spec in S as (_ & _ & _ & _ & S5). apply S5. intros k Hk. now rewrite (Nm k Hk).
  Qed.

  (** *** Initial guesses *)
  (** No deck changes the initial guesses: their names have no dot and every name that is looked up has one. *)
Theorem C59_guesses_refuted n var d v v' : (forall g, In g guess_names -> ~ In "."%char g) ->
    (forall g, In g guess_names -> ~ In g (map fst alternate)) -> ~ In "("%char n ->
    process n var d v = Ok v' -> guesses v' = guesses v.
  Proof.
    intros H1 H2 H3 P. destruct (process_names _ _ _ _ _ P) as [D|(names & ind & U)].
    { unfold ForModel.process in P. rewrite D in P. now injection P as <-. }
    destruct (process_cases _ _ _ _ _ _ _ P U) as [[-> _]|(_ & _ & skip & vals & u & S)]; [reflexivity|].
    apply store_names_spec in S as (_ & _ & _ & S4 & _). apply S4. intros k Hk. unfold is_guess.
    destruct (mem_str k guess_names) eqn:M; [|reflexivity]. exfalso. apply mem_str_In in M.
    assert (F : forall w i, (match fst (match_keys alternate w i) with [] => [w] | l => l end) = names -> In "."%char w -> False).
    { intros w i Q Dot. destruct (fst (match_keys alternate w i)) as [|x l] eqn:E.
      - subst names. destruct Hk as [<-|[]]. exact (H1 _ M Dot).
      - subst names. rewrite <- E in Hk. apply match_keys_key in Hk. exact (H2 _ M Hk). }
    unfold update_name in U. unfold full in U.
    destruct (in_dec ascii_dec "("%char var) as [Iv|Nv].
    - apply in_split in Iv as (p & q & Ev).
      assert (SP : exists p' q', n ++ "."%char :: var = (n ++ "."%char :: p') ++ "("%char :: q' /\ ~ In "("%char p').
      { clear -Ev. revert p q Ev. induction var as [|c var IH]; intros p q Ev; [destruct p; discriminate|].
        destruct (ascii_dec c "("%char) as [->|Nc].
        - exists [], var. split; [now rewrite <- app_assoc|intros []].
        - destruct p as [|c' p]; [injection Ev as E1 _; congruence|]. injection Ev as <- Ev.
          destruct (IH p q Ev) as (p' & q' & E & Np). exists (c :: p'), q'. split.
          + rewrite <- app_assoc in *. apply app_inv_head in E. injection E as E. now rewrite E.
          + intros [Q|Q]; [congruence|contradiction]. }
      destruct SP as (p' & q' & E & Np). rewrite E in U. rewrite split_on_app in U; [|reflexivity|].
      + cbn [rev app] in U. destruct (split_on is_open [] q') as [|i rest].
        * injection U as U _. eapply F; [exact U|]. apply in_app_iff. left. apply in_app_iff. right. now left.
        * destruct (py_int (fst (cut_at is_close i))); [|discriminate]. injection U as U _. eapply F; [exact U|].
          apply in_app_iff. right. now left.
      + apply not_in_free. intro Q. apply in_app_iff in Q as [Q|[Q|Q]]; [contradiction|discriminate|contradiction].
    - rewrite split_on_none in U.
      + cbn [rev app] in U. injection U as U _. eapply F; [exact U|]. apply in_app_iff. right. now left.
      + apply not_in_free. intro Q. apply in_app_iff in Q as [Q|[Q|Q]]; [contradiction|discriminate|contradiction].
  Qed.
  (** *** Elements *)
  (** Inside of a namelist elements are counted from one, outside from zero; all other elements are kept. *)
Theorem C59_index n var w v k c l u (p : nat) : deprecated (full n var) = Ok false ->
    update_name alternate (full n var) = Ok ([k], Some (Z.of_nat p + match n with [] => 0 | _ => 1 end)%Z) ->
    full n var <> lit "INPROP.GR" -> core k = Some c -> is_guess k = false -> word w -> valid_units w = false ->
    aget k (inputs v) = Some (l, u) -> u <> [] ->
    exists v' l', process n var w v = Ok v' /\ aget k (inputs v') = Some (l', u) /\ nth p l' None = Some (convert w) /\
      (forall j, j <> p -> j < length l -> nth j l' None = nth j l None) /\ length l' = Nat.max (length l) (S p).
  Proof.
    intros D U G C Gu W V A Nu. rewrite (process_unfold _ _ _ _ _ _ D U G).
    assert (E : pieces w = [w]).
    { unfold pieces. rewrite <- (app_nil_r w) at 1. apply (pieces_words [w]); [discriminate|].
      constructor; [exact W|constructor]. }
    rewrite E. cbn [rev app]. rewrite V. cbn [offset values map ForModel.store_names]. unfold ForModel.store_name. unfold is_guess in Gu. rewrite Gu, C.
    set (u0 := match defaults (full n var) with Some u => u | None => [] end).
    set (i := match n with [] => _ | _ => _ end). assert (Ei : i = Z.of_nat p) by (unfold i; destruct n; lia). rewrite Ei.
    destruct (C59_element core k (Some (convert w)) [] u0 (inputs v) (Z.of_nat p) l u A Nu ltac:(lia)) as (d' & l' & S & S1 & S2 & S3 & S4).
    rewrite S. cbn [rbind fst snd]. eexists. exists l'. split; [reflexivity|]. cbn [inputs]. split; [exact S1|]. rewrite Nat2Z.id in *.
    split; [rewrite S3, Nat.eqb_refl; reflexivity|]. split; [|exact S2]. intros j N L. rewrite S3.
    rewrite (proj2 (Nat.eqb_neq j p) N), (proj2 (Nat.ltb_lt j (length l)) L). reflexivity.
  Qed.
End Process.
Print Assumptions C59_index.

Print Assumptions C59_kept.
Print Assumptions C59_last_wins.
Print Assumptions C59_units_refuted.
Print Assumptions C59_free_names_refuted.
Print Assumptions C59_guesses_refuted.

(** The gear ratio of a propeller in namelist INPROP always raises an exception: the call of set_value gets units twice. *)
Theorem C59_gear_refuted core vu dep alt dflt gn gasp tf data v : dep (lit "INPROP.GR") = Ok false ->
  exists e, process core vu dep alt dflt gn gasp tf (lit "INPROP") (lit "GR") data v = Err e.
Proof.
  intro D. unfold process. change (full (lit "INPROP") (lit "GR")) with (lit "INPROP.GR"). rewrite D. cbn [rbind].
  rewrite no_index by (cbn; intuition discriminate). cbn [rbind]. rewrite str_eqb_refl.
  destruct (rev _) as [|u r]; [eauto|]. destruct (vu u); eauto.
Qed.
Print Assumptions C59_gear_refuted.

(** ** A small deck *)
Definition demo_core (k : str) : option str :=
  if str_eqb k (lit "aircraft:wing:span") then Some (lit "ft")
  else if str_eqb k (lit "aircraft:fuselage:pressure_differential") then Some (lit "psi") else None.
Definition demo_units (s : str) : bool := mem_str s [lit "atm"; lit "m"].
Definition demo_names : list (str * list str) :=
  [(lit "aircraft:wing:span", [lit "INGASP.B"]); (lit "aircraft:fuselage:pressure_differential", [lit "INGASP.DELP"])].
Definition demo (lines : list string) : res vehicle :=
  convert_deck demo_core demo_units (fun _ => Ok false) demo_names (fun _ => None) [lit "reserves"] true (fun _ => Ok 0%Q)
    [(lit "INGASP", lit "B", lit "100.0")] (map lit lines) [(lit "reserves", 0%Q)].

Example C59_witness_convert : demo ["$INGASP"; " B = 110, Q=3,"; "$END"]%string =
  Ok {| inputs := [(lit "aircraft:wing:span", ([Some (DInt 110)], lit "ft"))];
        unused := [(lit "INGASP.Q", ([Some (DInt 3)], lit "unitless"))]; guesses := [(lit "reserves", 0%Q)] |}.
Proof. reflexivity. Qed.
(** metres written behind the span are ignored *)
Example C59_witness_units : demo ["$INGASP"; " B = 110, m"; "$END"]%string = demo ["$INGASP"; " B = 110"; "$END"]%string.
Proof. reflexivity. Qed.
(** the example of the documentation (L15) is not converted *)
Example C59_witness_free : exists q, demo ["aircraft:fuselage:pressure_differential = .5, atm !DELP"; "reserves = 5"]%string =
  Ok {| inputs := [(lit "aircraft:wing:span", ([Some (DFloat q)], lit "ft"))] ;
        unused := [(lit ".aircraft:fuselage:pressure_differential", ([Some (convert (lit ".5"))], lit "atm"));
                   (lit ".reserves", ([Some (DInt 5)], lit "unitless"))]; guesses := [(lit "reserves", 0%Q)] |}.
Proof. eexists. reflexivity. Qed.
