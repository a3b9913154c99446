From Coq Require Import Sorted.
From Verif Require Import Base NVModel NVSpec.

Section P.
  Context {A : Type}.
  Implicit Types (c : nv A) (h : list (op A)).

  (** Effect of one event on the mapping. *)
  Definition apply_ev c (e : ev A) : nv A :=
    match e with
    | EWrite k v s => dset k (v, s) c
    | EErase k => ddel k c
    | EEraseAll => []
    end.

  Lemma update_loop_events c es :
    fst (update_loop c es) = fold_left apply_ev (good_prefix es) c /\
    (snd (update_loop c es) = Ok tt <-> forallb storable es = true).
  Proof.
    revert c; induction es as [|[k v u|e] es IH]; intro c; simpl.
    - split; [reflexivity|tauto].
    - destruct u; simpl; try (split; [reflexivity|split; discriminate]).
      apply IH.
    - split; [reflexivity|split; discriminate].
  Qed.

  Lemma step_events c o :
    NoDup (dkeys c) ->
    fst (step c o) = fold_left apply_ev (events1 o) c.
  Proof.
    intro ND. destruct o as [k v u|o1 kw|k|]; simpl.
    - destruct u; reflexivity.
    - unfold update. rewrite fold_left_app.
      destruct (update_loop_events c o1) as [H1 H2].
      destruct (update_loop c o1) as [c1 r1]; simpl in *. subst c1.
      destruct r1 as [[]|e]; simpl.
      + destruct (forallb storable o1) eqn:E; [|destruct H2 as [H2 _]; specialize (H2 eq_refl); discriminate].
        apply update_loop_events.
      + destruct (forallb storable o1) eqn:E; [destruct H2 as [_ H2]; specialize (H2 eq_refl); discriminate|].
        reflexivity.
    - unfold delete. destruct (dget k c) eqn:E; simpl; [reflexivity|].
      symmetry. apply ddel_absent. now apply dget_None_keys.
    - reflexivity.
  Qed.

  Lemma apply_ev_NoDup c e : NoDup (dkeys c) -> NoDup (dkeys (apply_ev c e)).
  Proof.
    destruct e; simpl; intro H.
    - now apply NoDup_dset.
    - now apply NoDup_ddel.
    - constructor.
  Qed.

  Lemma fold_NoDup es c : NoDup (dkeys c) -> NoDup (dkeys (fold_left apply_ev es c)).
  Proof.
    revert c; induction es as [|e es IH]; simpl; intros c H; [exact H|].
    apply IH. now apply apply_ev_NoDup.
  Qed.

  Lemma run_events_gen c h :
    NoDup (dkeys c) -> run c h = fold_left apply_ev (events h) c.
  Proof.
    revert c; induction h as [|o h IH]; intros c H; [reflexivity|].
    simpl. rewrite fold_left_app, <- step_events by exact H.
    apply IH. rewrite step_events by exact H. now apply fold_NoDup.
  Qed.

  Lemma run_events h : run [] h = fold_left apply_ev (events h) ([] : nv A).
  Proof. apply run_events_gen. constructor. Qed.

  Lemma fold_snoc es (e : ev A) c : fold_left apply_ev (es ++ [e]) c = apply_ev (fold_left apply_ev es c) e.
  Proof. now rewrite fold_left_app. Qed.

  Lemma dget_fold k es : dget k (fold_left apply_ev es ([] : nv A)) = latest_rev k (rev es).
  Proof.
    induction es as [|e es IH] using rev_ind; [reflexivity|].
    rewrite fold_snoc, rev_app_distr; simpl.
    pose proof (fold_NoDup es ([] : nv A) (NoDup_nil _)) as ND.
    destruct e as [k' v s|k'|]; simpl.
    - rewrite dget_dset, IH. reflexivity.
    - destruct (String.eqb k k') eqn:E.
      + apply String.eqb_eq in E; subst. now apply dget_ddel_same.
      + rewrite dget_ddel_other; [exact IH|]. now apply String.eqb_neq.
    - reflexivity.
  Qed.

  Lemma run_get k h :
    get_item (run [] h) k = match latest k h with Some it => Ok it | None => Err KeyError end.
  Proof. unfold get_item, latest. now rewrite run_events, dget_fold. Qed.

  Lemma run_contains k h :
    contains (run [] h) k = match latest k h with Some _ => true | None => false end.
  Proof. unfold contains, dmem, latest. now rewrite run_events, dget_fold. Qed.

  Lemma run_items h k it : In (k, it) (items (run [] h)) <-> latest k h = Some it.
  Proof.
    unfold items, latest. rewrite run_events, <- dget_fold. split.
    - apply dget_NoDup_In. apply fold_NoDup. constructor.
    - apply dget_In.
  Qed.

  Lemma run_keys_nodup h : NoDup (keys (run [] h)).
  Proof. unfold keys. rewrite run_events. apply fold_NoDup. constructor. Qed.

  (** *** Birth order *)
  Lemma birth_snoc k es e n cur :
    birth_aux (A:=A) k n cur (es ++ [e]) =
    let b := birth_aux k n cur es in
    match e with
    | EWrite k' _ _ => if String.eqb k k' then match b with Some x => Some x | None => Some (n + length es) end else b
    | EErase k' => if String.eqb k k' then None else b
    | EEraseAll => None
    end.
  Proof.
    revert n cur; induction es as [|e' es IH]; intros n cur; simpl.
    - destruct e; simpl; rewrite ?Nat.add_0_r; try reflexivity.
    - destruct e'; simpl; rewrite IH; simpl;
        replace (S (n + length es)) with (n + S (length es)) by lia; reflexivity.
  Qed.

  Definition bk es k := birth_aux (A:=A) k 0 None es.

  Lemma bk_lt es k b : bk es k = Some b -> b < length es.
  Proof.
    unfold bk. revert b. induction es as [|e es IH] using rev_ind; intros b; [discriminate|].
    rewrite birth_snoc, app_length; simpl.
    destruct e as [k' v s|k'|]; simpl.
    - destruct (String.eqb k k').
      + destruct (birth_aux k 0 None es) eqn:E.
        * intros [= <-]. specialize (IH _ eq_refl). lia.
        * intros [= <-]. lia.
      + intro H. specialize (IH _ H). lia.
    - destruct (String.eqb k k'); [discriminate|]. intro H. specialize (IH _ H). lia.
    - discriminate.
  Qed.

  Lemma bk_get es k : bk es k = None <-> dget k (fold_left apply_ev es ([] : nv A)) = None.
  Proof.
    unfold bk. induction es as [|e es IH] using rev_ind; [simpl; tauto|].
    rewrite birth_snoc, fold_snoc; simpl.
    pose proof (fold_NoDup es ([] : nv A) (NoDup_nil _)) as ND.
    destruct e as [k' v s|k'|]; simpl.
    - rewrite dget_dset. destruct (String.eqb k k'); [|exact IH].
      destruct (birth_aux k 0 None es); split; discriminate.
    - destruct (String.eqb k k') eqn:E.
      + apply String.eqb_eq in E; subst. split; intros _; [|reflexivity]. now apply dget_ddel_same.
      + rewrite dget_ddel_other; [exact IH|]. now apply String.eqb_neq.
    - tauto.
  Qed.

  Definition lt_birth es k1 k2 :=
    exists b1 b2, bk es k1 = Some b1 /\ bk es k2 = Some b2 /\ b1 < b2.

  Lemma SS_app_one (R : string -> string -> Prop) l x :
    StronglySorted R l -> Forall (fun y => R y x) l -> StronglySorted R (l ++ [x]).
  Proof.
    induction l as [|y l IH]; simpl; intros HS HF.
    - constructor; constructor.
    - inversion HS; inversion HF; subst. constructor; [now apply IH|].
      apply Forall_app; split; [assumption|]. now constructor.
  Qed.

  Lemma SS_impl (R1 R2 : string -> string -> Prop) l :
    (forall x y, In x l -> In y l -> R1 x y -> R2 x y) -> StronglySorted R1 l -> StronglySorted R2 l.
  Proof.
    induction l as [|x l IH]; intros HI HS; [constructor|].
    inversion HS as [|? ? HS' HF]; subst. constructor.
    - apply IH; [|exact HS']. intros; apply HI; simpl; tauto.
    - rewrite Forall_forall in HF |- *. intros y Hy. apply HI; simpl; auto.
  Qed.

  Lemma SS_ddel (R : string -> string -> Prop) k (d : nv A) :
    StronglySorted R (dkeys d) -> StronglySorted R (dkeys (ddel k d)).
  Proof.
    induction d as [|[k' v'] d IH]; simpl; intro HS; [constructor|].
    inversion HS as [|? ? HS' HF]; subst.
    destruct (String.eqb k k'); simpl; [exact HS'|].
    constructor; [now apply IH|].
    rewrite Forall_forall in HF |- *. intros y Hy. apply HF. now apply dkeys_ddel_sub in Hy.
  Qed.

  Lemma sorted_fold es : StronglySorted (lt_birth es) (dkeys (fold_left apply_ev es ([] : nv A))).
  Proof.
    induction es as [|e es IH] using rev_ind; [constructor|].
    rewrite fold_snoc.
    pose proof (fold_NoDup es ([] : nv A) (NoDup_nil _)) as ND.
    set (d := fold_left apply_ev es ([] : nv A)) in *.
    assert (Hin : forall k, In k (dkeys d) -> exists b, bk es k = Some b).
    { intros k Hk. apply dget_Some_keys in Hk. destruct Hk as [v Hv].
      destruct (bk es k) as [b|] eqn:E; [eauto|].
      apply bk_get in E. fold d in E. congruence. }
    destruct e as [k' v s|k'|]; simpl.
    - assert (Hkeep : forall k b, bk es k = Some b -> bk (es ++ [EWrite k' v s]) k = Some b).
      { intros k b Hb. unfold bk in *. rewrite birth_snoc; simpl. rewrite Hb.
        now destruct (String.eqb k k'). }
      destruct (in_dec string_dec k' (dkeys d)) as [Hk|Hk].
      + rewrite dkeys_dset_mem by exact Hk.
        eapply SS_impl; [|exact IH]. intros x y _ _ [b1 [b2 [H1 [H2 H3]]]].
        exists b1, b2. auto.
      + rewrite dkeys_dset_new by exact Hk. apply SS_app_one.
        * eapply SS_impl; [|exact IH]. intros x y _ _ [b1 [b2 [H1 [H2 H3]]]].
          exists b1, b2. auto.
        * rewrite Forall_forall. intros y Hy. destruct (Hin y Hy) as [b Hb].
          exists b, (length es). split; [auto|]. split.
          -- unfold bk. rewrite birth_snoc; simpl. rewrite String.eqb_refl.
             apply dget_None_keys in Hk. apply bk_get in Hk. unfold bk in Hk. now rewrite Hk.
          -- now apply bk_lt in Hb.
    - apply SS_impl with (R1 := lt_birth es).
      + assert (Hne : forall x, In x (dkeys (ddel k' d)) -> bk (es ++ [EErase k']) x = bk es x).
        { intros x Hx. unfold bk. rewrite birth_snoc; simpl.
          destruct (String.eqb x k') eqn:E; [|reflexivity].
          apply String.eqb_eq in E; subst x. exfalso.
          apply dget_Some_keys in Hx. destruct Hx as [w Hw].
          rewrite dget_ddel_same in Hw by exact ND. discriminate. }
        intros x y Hx Hy [b1 [b2 [H1 [H2 H3]]]].
        exists b1, b2. rewrite !Hne by assumption. auto.
      + now apply SS_ddel.
    - constructor.
  Qed.

  Lemma run_keys_sorted h : StronglySorted (older h) (keys (run [] h)).
  Proof.
    unfold keys. rewrite run_events. apply (sorted_fold (events h)).
  Qed.

  Lemma run_len h : len (run [] h) = length (keys (run [] h)).
  Proof. unfold len, keys. now rewrite dkeys_length. Qed.

  Lemma run_keys_in h k : In k (keys (run [] h)) <-> latest k h <> None.
  Proof.
    unfold keys, latest. rewrite run_events, <- dget_fold, <- dget_Some_keys.
    destruct (dget k _); split; try congruence; eauto. intros [v Hv]; discriminate.
  Qed.

  (** *** Failures *)
  Lemma fail_unchanged c o e :
    (forall o1 kw, o <> OUpdate o1 kw) -> snd (step c o) = Err e -> fst (step c o) = c.
  Proof.
    intros Hn. destruct o as [k v u|o1 kw|k|]; simpl.
    - unfold set_val. destruct (check_units u); simpl; [discriminate|reflexivity].
    - exfalso. now apply (Hn o1 kw).
    - unfold delete. destruct (dget k c); simpl; [discriminate|reflexivity].
    - discriminate.
  Qed.

  Lemma loop_app c l1 l2 :
    forallb storable l1 = true -> update_loop c (l1 ++ l2) = update_loop (fst (update_loop c l1)) l2.
  Proof.
    revert c; induction l1 as [|x l1 IH]; intros c H; [reflexivity|].
    simpl in H. apply andb_true_iff in H. destruct H as [H1 H2].
    destruct x as [k v u|e]; [|discriminate]. destruct u; try discriminate.
    simpl. now apply IH.
  Qed.

  Lemma update_fail_split c o1 kw e :
    snd (update c o1 kw) = Err e ->
    exists pre x post, o1 ++ kw = pre ++ x :: post /\
      forallb storable pre = true /\ storable x = false /\
      (x = BadEntry e \/ (e = TypeError /\ exists k v u, x = Entry k v u)) /\
      fst (update c o1 kw) = fst (update c pre []) /\
      snd (update c pre []) = Ok tt.
  Proof.
    assert (L : forall es c0 e0, snd (update_loop c0 es) = Err e0 ->
      exists pre x post, es = pre ++ x :: post /\
      forallb storable pre = true /\ storable x = false /\
      (x = BadEntry e0 \/ (e0 = TypeError /\ exists k v u, x = Entry k v u)) /\
      fst (update_loop c0 es) = fst (update_loop c0 pre) /\ snd (update_loop c0 pre) = Ok tt).
    { induction es as [|x es IH]; intros c0 e0 H; [discriminate|].
      destruct x as [k v u|e1]; [destruct u as [| |s]|].
      - exists [], (Entry k v UNone), es. simpl in *. injection H as <-. repeat split; eauto. right; eauto.
      - exists [], (Entry k v UOther), es. simpl in *. injection H as <-. repeat split; eauto. right; eauto.
      - simpl in H. destruct (IH _ _ H) as [pre [x [post [H1 [H2 [H3 [H4 [H5 H6]]]]]]]].
        exists (Entry k v (UStr s) :: pre), x, post. simpl. rewrite H1 at 1. repeat split; auto.
      - exists [], (BadEntry e1), es. simpl in *. injection H as <-. repeat split; eauto. }
    assert (U : forall pre, snd (update_loop c pre) = Ok tt -> update c pre [] = update_loop c pre).
    { intros pre Hp. unfold update. destruct (update_loop c pre) as [c1 [[]|]]; simpl in *; congruence. }
    intro H. unfold update in H.
    destruct (update_loop c o1) as [c1 r1] eqn:E1. destruct r1 as [[]|e1].
    - destruct (L kw c1 e H) as [pre [x [post [H1 [H2 [H3 [H4 [H5 H6]]]]]]]].
      assert (S1 : forallb storable o1 = true).
      { apply (update_loop_events c o1). now rewrite E1. }
      assert (App : forall l, update_loop c (o1 ++ l) = update_loop c1 l).
      { intro l. rewrite loop_app by exact S1. now rewrite E1. }
      exists (o1 ++ pre), x, post. rewrite H1 at 1. rewrite <- app_assoc.
      rewrite forallb_app, S1, H2.
      assert (Hp : snd (update_loop c (o1 ++ pre)) = Ok tt) by (rewrite App; exact H6).
      rewrite (U _ Hp). repeat split; auto.
      unfold update. rewrite E1, App. exact H5.
    - simpl in H. injection H as ->.
      assert (H' : snd (update_loop c o1) = Err e) by now rewrite E1.
      destruct (L o1 c e H') as [pre [x [post [H1 [H2 [H3 [H4 [H5 H6]]]]]]]].
      exists pre, x, (post ++ kw). rewrite H1 at 1. rewrite <- app_assoc.
      rewrite (U _ H6). repeat split; auto.
      unfold update. rewrite E1. simpl. rewrite E1 in H5. exact H5.
  Qed.

  Lemma update_ok_iff c o1 kw :
    snd (update c o1 kw) = Ok tt <-> forallb storable (o1 ++ kw) = true.
  Proof.
    rewrite forallb_app, andb_true_iff. unfold update.
    destruct (update_loop_events c o1) as [_ H1].
    destruct (update_loop c o1) as [c1 [[]|e]]; simpl in *.
    - rewrite (proj2 (update_loop_events c1 kw)). tauto.
    - split; [discriminate|]. intros [H _]. apply H1 in H. discriminate.
  Qed.

  Lemma run_iteration h :
    (forall k it, In (k, it) (items (run [] h)) <-> latest k h = Some it) /\
    (forall k, In k (keys (run [] h)) <-> latest k h <> None) /\
    (forall k, contains (run [] h) k = true <-> In k (keys (run [] h))) /\
    NoDup (keys (run [] h)) /\
    keys (run [] h) = map fst (items (run [] h)) /\
    len (run [] h) = length (keys (run [] h)).
  Proof.
    split; [exact (run_items h)|]. split; [exact (run_keys_in h)|]. split.
    - intro k. rewrite run_keys_in, run_contains. destruct (latest k h); split; congruence.
    - split; [exact (run_keys_nodup h)|]. split; [reflexivity|exact (run_len h)].
  Qed.
End P.

Lemma update_not_atomic :
  exists (c : nv nat) o1 kw e, snd (update c o1 kw) = Err e /\ fst (update c o1 kw) <> c.
Proof.
  exists [], [Entry "a" 1 (UStr "m"); Entry "b" 2 UNone], [], TypeError. split; [reflexivity|discriminate].
Qed.

(** Exactly which calls raise, and with what. *)
Lemma call_outcomes (A : Type) (c : nv A) :
  (forall k v u, snd (step c (OSet k v u)) = match u with UStr _ => Ok tt | _ => Err TypeError end) /\
  (forall k, snd (step c (ODelete k)) = if contains c k then Ok tt else Err KeyError) /\
  snd (step c OClear) = Ok tt.
Proof.
  repeat split.
  - intros k v u. destruct u; reflexivity.
  - intros k. unfold step, delete, contains, dmem. destruct (dget k c); reflexivity.
Qed.
