From Verif Require Import Base NVHeapModel.

Section P.
  Context {V : Type}.
  Implicit Types (s : heap V) (h : handle).

  Lemma upd_length {X} n (x : X) l : length (upd n x l) = length l.
  Proof. revert n; induction l as [|y l IH]; intros [|n]; simpl; auto. Qed.

  Lemma nth_upd_same {X} n (x d : X) l : n < length l -> nth n (upd n x l) d = x.
  Proof. revert n; induction l as [|y l IH]; intros [|n] H; simpl in *; try lia; auto. apply IH; lia. Qed.

  Lemma nth_upd_other {X} n m (x d : X) l : n <> m -> nth m (upd n x l) d = nth m l d.
  Proof.
    revert n m; induction l as [|y l IH]; intros [|n] [|m] H; simpl; auto; try lia.
  Qed.

  Lemma nth_error_upd_same {X} n (x : X) l : n < length l -> nth_error (upd n x l) n = Some x.
  Proof. revert n; induction l as [|y l IH]; intros [|n] H; simpl in *; try lia; auto. apply IH; lia. Qed.

  Lemma nth_error_upd_other {X} n m (x : X) l : n <> m -> nth_error (upd n x l) m = nth_error l m.
  Proof.
    revert n m; induction l as [|y l IH]; intros [|n] [|m] H; simpl; auto; try lia.
  Qed.

  Definition refs (d : dict (nat * string)) : list nat := map (fun e => fst (snd e)) d.

  Lemma refs_dset k r u d x : In x (refs (dset k (r, u) d)) -> x = r \/ In x (refs d).
  Proof.
    induction d as [|[k' [r' u']] d IH]; simpl; [intuition|].
    destruct (String.eqb k k'); simpl; intuition.
  Qed.
  Lemma refs_ddel k d x : In x (refs (ddel k d)) -> In x (refs d).
  Proof.
    induction d as [|[k' [r' u']] d IH]; simpl; [tauto|].
    destruct (String.eqb k k'); simpl; intuition.
  Qed.
  Lemma refs_dget k d r u : dget k d = Some (r, u) -> In r (refs d).
  Proof.
    intro H. apply dget_In in H. unfold refs.
    change r with (fst (snd (k, (r, u)))). now apply (in_map (fun e => fst (snd e))).
  Qed.

  (** No dangling references. *)
  Definition wf s : Prop := forall h r, In r (refs (hmap s h)) -> r < length (vals s).

  (** Two handles are separated: distinct mapping objects that reference no common value object. *)
  Definition sep s h1 h2 : Prop :=
    h1 <> h2 /\ forall r, In r (refs (hmap s h1)) -> In r (refs (hmap s h2)) -> False.

  Lemma hmap_upd s h d h2 :
    h < length (maps s) ->
    hmap {| maps := upd h d (maps s); vals := vals s |} h2 = if Nat.eqb h2 h then d else hmap s h2.
  Proof.
    intro H. unfold hmap; simpl. destruct (Nat.eqb h2 h) eqn:E.
    - apply Nat.eqb_eq in E; subst. now apply nth_upd_same.
    - apply Nat.eqb_neq in E. apply nth_upd_other. auto.
  Qed.

  Lemma hmap_vals m (v1 v2 : list V) h : hmap {| maps := m; vals := v1 |} h = hmap {| maps := m; vals := v2 |} h.
  Proof. reflexivity. Qed.

  Lemma hstep_len s h o : length (maps (hstep s h o)) = length (maps s).
  Proof.
    destruct o; simpl; rewrite ?upd_length; auto.
    - destruct (dget k2 (hmap s h)) as [[r u']|]; simpl; rewrite ?upd_length; auto.
    - destruct (dget k (hmap s h)) as [[r u']|]; auto. destruct (nth_error (vals s) r); auto.
  Qed.

  Lemma hmap_other s h o h2 : h2 <> h -> hmap (hstep s h o) h2 = hmap s h2.
  Proof.
    intro N. unfold hmap. destruct o; simpl; try (apply nth_upd_other; auto; fail).
    - fold (hmap s h). destruct (dget k2 (hmap s h)) as [[r u']|]; simpl; auto. apply nth_upd_other; auto.
    - fold (hmap s h). destruct (dget k (hmap s h)) as [[r u']|]; auto. destruct (nth_error (vals s) r); auto.
  Qed.

  (** New mapping of the acting handle, as a function of its old mapping and the next free ref. *)
  Definition newmap (n : nat) (d : dict (nat * string)) (o : hop V) : dict (nat * string) :=
    match o with
    | HSet k _ u => dset k (n, u) d
    | HShare k k2 u => match dget k2 d with Some (r, _) => dset k (r, u) d | None => d end
    | HMutate _ _ => d
    | HDelete k => ddel k d
    | HClear => []
    end.

  Lemma hmap_self s h o : h < length (maps s) -> hmap (hstep s h o) h = newmap (length (vals s)) (hmap s h) o.
  Proof.
    intro H. unfold hmap. destruct o; simpl; try (now apply nth_upd_same).
    - fold (hmap s h). destruct (dget k2 (hmap s h)) as [[r u']|]; simpl; auto. now apply nth_upd_same.
    - fold (hmap s h). destruct (dget k (hmap s h)) as [[r u']|]; auto. destruct (nth_error (vals s) r); auto.
  Qed.

  Lemma newmap_refs n d o r : In r (refs (newmap n d o)) -> r = n \/ In r (refs d).
  Proof.
    destruct o; simpl; auto.
    - apply refs_dset.
    - destruct (dget k2 d) as [[r' u']|] eqn:E; auto. intro H. apply refs_dset in H.
      destruct H as [->|H]; auto. right. eapply refs_dget; eauto.
    - intro H. right. now apply refs_ddel in H.
    - tauto.
  Qed.

  Lemma vals_len_mono s h o : length (vals s) <= length (vals (hstep s h o)).
  Proof.
    destruct o; simpl; rewrite ?app_length; simpl; try lia.
    - destruct (dget k2 (hmap s h)) as [[r u']|]; simpl; lia.
    - destruct (dget k (hmap s h)) as [[r u']|]; auto. destruct (nth_error (vals s) r); simpl; rewrite ?upd_length; lia.
  Qed.

  Lemma hstep_wf s h o : wf s -> h < length (maps s) -> wf (hstep s h o).
  Proof.
    intros W H h2 r Hr. destruct (Nat.eq_dec h2 h) as [->|N].
    - rewrite hmap_self in Hr by exact H. pose proof (vals_len_mono s h o) as M.
      destruct o; simpl in Hr.
      + apply refs_dset in Hr. simpl. rewrite app_length; simpl. destruct Hr as [->|Hr]; [lia|]. apply W in Hr. lia.
      + destruct (dget k2 (hmap s h)) as [[r' u']|] eqn:E.
        * apply refs_dset in Hr. destruct Hr as [->|Hr].
          -- apply refs_dget in E. apply W in E. lia.
          -- apply W in Hr; lia.
        * apply W in Hr; lia.
      + apply W in Hr; lia.
      + apply refs_ddel in Hr. apply W in Hr. lia.
      + destruct Hr.
    - rewrite hmap_other in Hr by exact N. apply W in Hr. pose proof (vals_len_mono s h o). lia.
  Qed.

  Lemma sep_sym s h1 h2 : sep s h1 h2 -> sep s h2 h1.
  Proof. intros [N S]. split; [auto|]. intros r H1 H2. exact (S r H2 H1). Qed.

  Lemma hstep_sep s h1 h2 o : wf s -> h1 < length (maps s) -> sep s h1 h2 -> sep (hstep s h1 o) h1 h2.
  Proof.
    intros W H [N S]. split; [exact N|]. intros r H1 H2.
    rewrite hmap_other in H2 by auto. rewrite hmap_self in H1 by exact H.
    apply newmap_refs in H1. destruct H1 as [->|H1].
    - apply W in H2. lia.
    - eapply S; eauto.
  Qed.

  (** An operation through [h1] does not touch value objects it does not reference. *)
  Lemma hstep_vals_other s h1 o r :
    r < length (vals s) -> ~ In r (refs (hmap s h1)) ->
    nth_error (vals (hstep s h1 o)) r = nth_error (vals s) r.
  Proof.
    intros Hr Hn. destruct o; simpl; auto.
    - now rewrite nth_error_app1.
    - destruct (dget k2 (hmap s h1)) as [[r' u']|]; auto.
    - destruct (dget k (hmap s h1)) as [[r' u']|] eqn:E; auto.
      destruct (nth_error (vals s) r'); auto. simpl. apply nth_error_upd_other.
      intro Heq; subst. apply Hn. eapply refs_dget; eauto.
  Qed.

  Lemma observe_other s h1 h2 o : wf s -> sep s h1 h2 -> observe (hstep s h1 o) h2 = observe s h2.
  Proof.
    intros W [N S]. unfold observe. rewrite hmap_other by auto.
    apply map_ext_in. intros [k [r u]] Hin. f_equal. f_equal.
    assert (Hr : In r (refs (hmap s h2))).
    { unfold refs. change r with (fst (snd (k, (r, u)))). now apply (in_map (fun e => fst (snd e))). }
    apply hstep_vals_other; [now apply (W h2)|]. intro H. eapply S; eauto.
  Qed.

  (** *** Simulation: two heaps that look the same through a handle (up to renaming of references). *)
  Definition sim s1 s2 h : Prop :=
    exists f : nat -> nat,
      (forall x y, In x (refs (hmap s1 h)) -> In y (refs (hmap s1 h)) -> f x = f y -> x = y) /\
      hmap s2 h = map (fun e => match e with (k, (r, u)) => (k, (f r, u)) end) (hmap s1 h) /\
      (forall r, In r (refs (hmap s1 h)) -> nth_error (vals s2) (f r) = nth_error (vals s1) r).

  Lemma sim_observe s1 s2 h : sim s1 s2 h -> observe s1 h = observe s2 h.
  Proof.
    intros [f [_ [Hm Hv]]]. unfold observe. rewrite Hm, map_map.
    apply map_ext_in. intros [k [r u]] Hin. f_equal. f_equal. symmetry. apply Hv.
    unfold refs. change r with (fst (snd (k, (r, u)))). now apply (in_map (fun e => fst (snd e))).
  Qed.

  Definition ren (f : nat -> nat) (d : dict (nat * string)) : dict (nat * string) :=
    map (fun e => match e with (k, (r, u)) => (k, (f r, u)) end) d.

  Lemma ren_dget f d k : dget k (ren f d) = match dget k d with Some (r, u) => Some (f r, u) | None => None end.
  Proof.
    induction d as [|[k' [r u]] d IH]; simpl; auto. destruct (String.eqb k k'); auto.
  Qed.
  Lemma ren_dset f d k r u : ren f (dset k (r, u) d) = dset k (f r, u) (ren f d).
  Proof.
    induction d as [|[k' [r' u']] d IH]; simpl; auto. destruct (String.eqb k k'); simpl; auto. now rewrite IH.
  Qed.
  Lemma ren_ddel f d k : ren f (ddel k d) = ddel k (ren f d).
  Proof.
    induction d as [|[k' [r' u']] d IH]; simpl; auto. destruct (String.eqb k k'); simpl; auto. now rewrite IH.
  Qed.
  Lemma ren_ext f g d : (forall r, In r (refs d) -> f r = g r) -> ren f d = ren g d.
  Proof.
    intro H. apply map_ext_in. intros [k [r u]] Hin. rewrite H; [reflexivity|].
    unfold refs. change r with (fst (snd (k, (r, u)))). now apply (in_map (fun e => fst (snd e))).
  Qed.

  Lemma hstep_sim s1 s2 h o :
    wf s1 -> wf s2 -> h < length (maps s1) -> h < length (maps s2) ->
    sim s1 s2 h -> sim (hstep s1 h o) (hstep s2 h o) h.
  Proof.
    intros W1 W2 L1 L2 [f [Hinj [Hm Hv]]]. fold (ren f (hmap s1 h)) in Hm.
    assert (Hvb : forall r, In r (refs (hmap s1 h)) -> r < length (vals s1) /\ f r < length (vals s2)).
    { intros r Hr. split; [now apply (W1 h)|]. apply (W2 h). rewrite Hm. unfold refs, ren. rewrite map_map.
      unfold refs in Hr. apply in_map_iff in Hr. destruct Hr as [[k [r' u]] [He Hin]]. simpl in He. subst.
      apply in_map_iff. exists (k, (r, u)). auto. }
    destruct o as [k v u|k k2 u|k g|k|].
    - (* HSet: extend the renaming with the two fresh references *)
      pose (n1 := length (vals s1)). pose (n2 := length (vals s2)).
      exists (fun r => if Nat.eqb r n1 then n2 else f r).
      rewrite !hmap_self by assumption. simpl.
      assert (Hne : forall r, In r (refs (hmap s1 h)) -> Nat.eqb r n1 = false).
      { intros r Hr. apply Nat.eqb_neq. apply Hvb in Hr. unfold n1. lia. }
      repeat split.
      + intros x y Hx Hy. apply refs_dset in Hx. apply refs_dset in Hy. fold n1 in Hx, Hy.
        destruct Hx as [->|Hx], Hy as [->|Hy]; auto.
        * rewrite Nat.eqb_refl, (Hne y Hy). intro E. apply Hvb in Hy. unfold n2 in E. lia.
        * rewrite Nat.eqb_refl, (Hne x Hx). intro E. apply Hvb in Hx. unfold n2 in E. lia.
        * rewrite (Hne x Hx), (Hne y Hy). auto.
      + fold (ren (fun r => if Nat.eqb r n1 then n2 else f r) (dset k (length (vals s1), u) (hmap s1 h))).
        rewrite ren_dset. fold n1. rewrite Nat.eqb_refl. fold n2. rewrite Hm. f_equal.
        apply ren_ext. intros r Hr. now rewrite (Hne r Hr).
      + intros r Hr. apply refs_dset in Hr. fold n1 in Hr. destruct Hr as [->|Hr].
        * rewrite Nat.eqb_refl. unfold n1, n2. rewrite !nth_error_app2, !Nat.sub_diag by lia. reflexivity.
        * rewrite (Hne r Hr). destruct (Hvb r Hr). rewrite !nth_error_app1 by assumption. auto.
    - exists f. rewrite !hmap_self by assumption. simpl. rewrite Hm, ren_dget.
      destruct (dget k2 (hmap s1 h)) as [[r0 u0]|] eqn:E.
      + assert (Hr0 : In r0 (refs (hmap s1 h))) by (eapply refs_dget; eauto).
        assert (Hsub : forall r, In r (refs (dset k (r0, u) (hmap s1 h))) -> In r (refs (hmap s1 h))).
        { intros r Hr. apply refs_dset in Hr. destruct Hr as [->|Hr]; auto. }
        simpl. repeat split.
        * intros; apply Hinj; auto.
        * fold (ren f (dset k (r0, u) (hmap s1 h))). now rewrite ren_dset.
        * intros r Hr. auto.
      + simpl. repeat split; auto.
    - exists f. rewrite !hmap_self by assumption. simpl. rewrite Hm, ren_dget.
      destruct (dget k (hmap s1 h)) as [[r0 u0]|] eqn:E.
      + assert (Hr0 : In r0 (refs (hmap s1 h))) by (eapply refs_dget; eauto).
        rewrite (Hv r0 Hr0). destruct (nth_error (vals s1) r0) as [v0|] eqn:Ev.
        * simpl. repeat split; auto. intros r Hr. destruct (Hvb r0 Hr0). destruct (Nat.eq_dec r r0) as [->|N].
          -- now rewrite !nth_error_upd_same.
          -- rewrite !nth_error_upd_other; auto.
        * repeat split; auto.
      + repeat split; auto.
    - exists f. rewrite !hmap_self by assumption. simpl. rewrite Hm. repeat split; auto.
      + intros x y Hx Hy. apply refs_ddel in Hx. apply refs_ddel in Hy. auto.
      + fold (ren f (ddel k (hmap s1 h))). now rewrite ren_ddel.
      + intros r Hr. apply refs_ddel in Hr. auto.
    - exists f. rewrite !hmap_self by assumption. simpl. repeat split; auto; simpl; tauto.
  Qed.

  Lemma sim_refl s h : sim s s h.
  Proof.
    exists (fun r => r). repeat split; auto.
    rewrite <- (map_id (hmap s h)) at 1. apply map_ext. now intros [k [r u]].
  Qed.

  Lemma sim_skip s1 s2 h h2 o : wf s1 -> sep s1 h2 h -> sim s1 s2 h -> sim (hstep s1 h2 o) s2 h.
  Proof.
    intros W Sp [f [Hinj [Hm Hv]]]. destruct Sp as [N S]. exists f. rewrite hmap_other by auto.
    repeat split; auto. intros r Hr. rewrite Hv by exact Hr. symmetry. apply hstep_vals_other.
    - now apply (W h).
    - intro H. exact (S r H Hr).
  Qed.

  (** Non-interference between two separated handles. *)
  Lemma noninterference s1 s2 h g l :
    wf s1 -> wf s2 -> h < length (maps s1) -> h < length (maps s2) -> g < length (maps s1) ->
    sep s1 h g -> sim s1 s2 h ->
    (forall p, In p l -> fst p = h \/ fst p = g) ->
    observe (hrun s1 l) h = observe (hrun s2 (only h l)) h.
  Proof.
    revert s1 s2; induction l as [|[x o] l IH]; intros s1 s2 W1 W2 L1 L2 L3 Sp Sm Hl; simpl.
    - now apply sim_observe.
    - assert (Hx : x = h \/ x = g) by (apply (Hl (x, o)); now left).
      destruct Hx as [->| ->].
      + rewrite Nat.eqb_refl. simpl. apply IH; rewrite ?hstep_len; auto using hstep_wf, hstep_sep, hstep_sim.
        intros p Hp. apply Hl. now right.
      + destruct (Nat.eqb g h) eqn:E; [apply Nat.eqb_eq in E; subst; destruct Sp; congruence|].
        apply IH; rewrite ?hstep_len; auto using hstep_wf.
        * apply sep_sym. apply hstep_sep; auto. now apply sep_sym.
        * apply sim_skip; auto. now apply sep_sym.
        * intros p Hp. apply Hl. now right.
  Qed.

  Lemma shift_refs n d r : In r (refs (shift n d)) <-> exists r0, In r0 (refs d) /\ r = n + r0.
  Proof.
    unfold refs, shift. rewrite map_map. rewrite in_map_iff. split.
    - intros [[k [r0 u]] [H Hin]]. simpl in H. exists r0. split; [|auto].
      apply in_map_iff. exists (k, (r0, u)). auto.
    - intros [r0 [Hin ->]]. apply in_map_iff in Hin. destruct Hin as [[k [r1 u]] [H Hin]]. simpl in H; subst.
      exists (k, (r0, u)). auto.
  Qed.

  Lemma deepcopy_maps s h x :
    x <= length (maps s) ->
    hmap (fst (deepcopy s h)) x = if Nat.eqb x (length (maps s)) then shift (length (vals s)) (hmap s h) else hmap s x.
  Proof.
    intro Hx. unfold hmap at 1; simpl. destruct (Nat.eqb x (length (maps s))) eqn:E.
    - apply Nat.eqb_eq in E; subst. rewrite app_nth2, Nat.sub_diag by lia. reflexivity.
    - apply Nat.eqb_neq in E. rewrite app_nth1 by lia. reflexivity.
  Qed.

  Lemma deepcopy_props s h :
    wf s -> h < length (maps s) ->
    let s' := fst (deepcopy s h) in let g := snd (deepcopy s h) in
    wf s' /\ h < length (maps s') /\ g < length (maps s') /\ sep s' h g /\
    observe s' h = observe s h /\ observe s' g = observe s h.
  Proof.
    intros W H s' g.
    assert (Lm : length (maps s') = S (length (maps s))) by (unfold s'; simpl; rewrite app_length; simpl; lia).
    assert (Hg : g = length (maps s)) by reflexivity.
    assert (Mh : hmap s' h = hmap s h).
    { unfold s'. rewrite deepcopy_maps by lia. destruct (Nat.eqb h (length (maps s))) eqn:E; auto.
      apply Nat.eqb_eq in E; lia. }
    assert (Mg : hmap s' g = shift (length (vals s)) (hmap s h)).
    { unfold s'. rewrite deepcopy_maps by lia. rewrite Hg, Nat.eqb_refl. reflexivity. }
    repeat split; try lia.
    - intros x r Hr. unfold s'; simpl. rewrite app_length.
      destruct (Nat.le_gt_cases x (length (maps s))) as [Hx|Hx].
      + unfold s' in Hr. rewrite deepcopy_maps in Hr by exact Hx. destruct (Nat.eqb x (length (maps s))).
        * apply shift_refs in Hr. destruct Hr as [r0 [Hr0 ->]]. apply W in Hr0. lia.
        * apply W in Hr. lia.
      + unfold hmap in Hr. rewrite nth_overflow in Hr by lia. destruct Hr.
    - intros r H1 H2. rewrite Mh in H1. rewrite Mg in H2. apply shift_refs in H2.
      destruct H2 as [r0 [_ ->]]. apply W in H1. lia.
    - unfold observe. rewrite Mh. apply map_ext_in. intros [k [r u]] Hin. f_equal. f_equal.
      simpl. rewrite nth_error_app1; auto. apply (W h).
      unfold refs. change r with (fst (snd (k, (r, u)))). now apply (in_map (fun e => fst (snd e))).
    - unfold observe. rewrite Mg. unfold shift. rewrite map_map. apply map_ext_in.
      intros [k [r u]] Hin. f_equal. f_equal. simpl.
      rewrite nth_error_app2 by lia. f_equal. lia.
  Qed.

  Lemma deepcopy_isolated s h :
    wf s -> h < length (maps s) ->
    let s' := fst (deepcopy s h) in let g := snd (deepcopy s h) in
    observe s' h = observe s h /\ observe s' g = observe s h /\
    forall l, (forall p, In p l -> fst p = h \/ fst p = g) ->
      observe (hrun s' l) h = observe (hrun s' (only h l)) h /\
      observe (hrun s' l) g = observe (hrun s' (only g l)) g.
  Proof.
    intros W H s' g. destruct (deepcopy_props s h W H) as [W' [H1 [H2 [Sp [O1 O2]]]]].
    fold s' g in W', H1, H2, Sp, O1, O2.
    split; [exact O1|]. split; [exact O2|]. intros l Hl. split.
    - apply noninterference with (g := g); auto using sim_refl.
    - apply noninterference with (g := h); auto using sim_refl, sep_sym.
      intros p Hp. apply Hl in Hp. tauto.
  Qed.

  Lemma reach_wf s : reach s -> wf s.
  Proof.
    induction 1 as [|s H IH|s h o H IH Hh|s h H IH Hh|s h H IH Hh].
    - intros h r Hr. unfold hmap in Hr; simpl in Hr. destruct h; destruct Hr.
    - intros h r Hr. simpl. unfold hmap in Hr; simpl in Hr.
      destruct (Nat.lt_ge_cases h (length (maps s))) as [L|L].
      + rewrite app_nth1 in Hr by exact L. now apply (IH h).
      + rewrite app_nth2 in Hr by exact L. destruct (h - length (maps s)) as [|[|n]]; destruct Hr.
    - now apply hstep_wf.
    - exact IH.
    - now apply (deepcopy_props s h).
  Qed.

  Lemma deepcopy_isolated_reach s h :
    reach s -> h < length (maps s) ->
    let s' := fst (deepcopy s h) in let g := snd (deepcopy s h) in
    observe s' h = observe s h /\ observe s' g = observe s h /\
    forall l, (forall p, In p l -> fst p = h \/ fst p = g) ->
      observe (hrun s' l) h = observe (hrun s' (only h l)) h /\
      observe (hrun s' l) g = observe (hrun s' (only g l)) g.
  Proof. intros R. apply deepcopy_isolated. now apply reach_wf. Qed.

  Lemma copy_shared s h l :
    let s' := fst (copy s h) in let g := snd (copy s h) in
    observe (hrun s' l) g = observe (hrun s' l) h.
  Proof. reflexivity. Qed.
End P.

Definition wit_heap : heap nat :=
  fst (let (s, h) := new empty_heap in (hstep s h (HSet "mass" 7 "kg"), h)).

Lemma wit_reach : reach wit_heap.
Proof.
  unfold wit_heap; simpl. apply (reach_step (fst (new empty_heap)) 0 (HSet "mass" 7 "kg")).
  - apply reach_new. apply reach_empty.
  - simpl. lia.
Qed.

Lemma copy_not_isolated :
  exists (s : heap nat) h o, reach s /\ h < length (maps s) /\
    let s' := fst (copy s h) in let g := snd (copy s h) in
    observe (hstep s' g o) h <> observe s' h.
Proof.
  exists wit_heap, 0, (HSet "mass" 8 "kg"). split; [exact wit_reach|]. split; [simpl; lia|].
  simpl. vm_compute. discriminate.
Qed.
