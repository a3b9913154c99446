From Coq Require Import QArith Qabs.
From Verif Require Import Base MergeModel.
Open Scope nat_scope.

(** * C10: metadata *)
(** Specification: when two metadata values agree. *)
Definition close (a b : Q) : Prop := (Qabs (a - b) <= (1 # 100000000) * Qabs b)%Q.

Section Agree.
  Variable py_eq : mval -> mval -> bool.

  Inductive agrees : mval -> mval -> Prop :=
  | ag_float x y : close x y -> agrees (MFloat x) (MFloat y)
  | ag_arr x y : Forall2 close x y -> agrees (MArr x) (MArr y)
  | ag_arr_left x y : Forall (fun b => close x b) y -> agrees (MArr [x]) (MArr y)
  | ag_arr_right x y : Forall (fun a => close a y) x -> agrees (MArr x) (MArr [y])
  | ag_dict a b :
      (forall k, In k (dkeys a) <-> In k (dkeys b)) ->
      (forall k v, In (k, v) a -> exists w, dget k b = Some w /\ agrees v w) ->
      agrees (MDict a) (MDict b)
  | ag_other a b :
      (forall x y, ~ (a = MFloat x /\ b = MFloat y)) -> (forall x y, ~ (a = MArr x /\ b = MArr y)) ->
      (forall x y, ~ (a = MDict x /\ b = MDict y)) -> py_eq a b = true -> agrees a b.
End Agree.

Section MvalInd.
  Variable P : mval -> Prop.
  Hypothesis HF : forall q, P (MFloat q).
  Hypothesis HA : forall l, P (MArr l).
  Hypothesis HD : forall d, Forall (fun p => P (snd p)) d -> P (MDict d).
  Hypothesis HO : forall n, P (MOther n).
  Fixpoint mval_ind' (v : mval) : P v :=
    match v with
    | MFloat q => HF q
    | MArr l => HA l
    | MDict d => HD d ((fix go (l : list (string * mval)) : Forall (fun p => P (snd p)) l :=
                          match l with
                          | [] => Forall_nil _
                          | p :: l' => Forall_cons p (mval_ind' (snd p)) (go l')
                          end) d)
    | MOther n => HO n
    end.
End MvalInd.

Lemma isclose_iff a b : isclose a b = true <-> close a b.
Proof. unfold isclose, close, rel_tol. apply Qle_bool_iff. Qed.

Lemma forallb_combine_iff a b : length a = length b ->
  (forallb (fun p => isclose (fst p) (snd p)) (combine a b) = true <-> Forall2 close a b).
Proof.
  revert b. induction a as [|x a IH]; intros [|y b] L; simpl in *; try discriminate.
  - split; [constructor|reflexivity].
  - rewrite andb_true_iff, isclose_iff, IH by lia. split.
    + intros [H1 H2]. now constructor.
    + intro H. inversion H; subst. tauto.
Qed.

Lemma Forall2_same_length {A B} (R : A -> B -> Prop) a b : Forall2 R a b -> length a = length b.
Proof. induction 1; simpl; congruence. Qed.

Lemma agrees_arr_inv py a b : agrees py (MArr a) (MArr b) ->
  Forall2 close a b \/ (exists x, a = [x] /\ Forall (fun z => close x z) b) \/
  (exists y, b = [y] /\ Forall (fun z => close z y) a).
Proof.
  intro H. inversion H as [| x y F | x y F | x y F | | x y _ N]; subst; [now left|right; left|right; right|].
  - now exists x.
  - now exists y.
  - exfalso. eapply N; eauto.
Qed.

Lemma forallb_close f (P : Q -> Prop) l : (forall z, f z = true <-> P z) -> (forallb f l = true <-> Forall P l).
Proof.
  intro E. rewrite forallb_forall, Forall_forall. split; intros H z Hz; apply E; auto.
Qed.

Lemma allclose_iff py a b : allclose a b = true <-> agrees py (MArr a) (MArr b).
Proof.
  unfold allclose. destruct (length a =? length b) eqn:E.
  - apply Nat.eqb_eq in E. rewrite forallb_combine_iff by exact E. split.
    + intro H. now constructor.
    + intro H. destruct (agrees_arr_inv _ _ _ H) as [F|[(x & -> & F)|(y & -> & F)]]; [exact F| |].
      * destruct b as [|y [|]]; try discriminate. inversion F; subst. now repeat constructor.
      * destruct a as [|x' [|]]; try discriminate. inversion F; subst. now repeat constructor.
  - apply Nat.eqb_neq in E.
    assert (NF : ~ Forall2 close a b) by (intro F; apply Forall2_same_length in F; contradiction).
    destruct a as [|x [|x' a]].
    + destruct b as [|y [|y' b]]; simpl in *; try congruence.
      * split; [intro; now apply ag_arr_right|reflexivity].
      * split; [discriminate|]. intro H. destruct (agrees_arr_inv _ _ _ H) as [F|[(z & G & F)|(z & G & F)]]; [easy|discriminate|discriminate].
    + rewrite (forallb_close _ (fun z => close x z)) by (intro; apply isclose_iff). split.
      * intro H. now apply ag_arr_left.
      * intro H. destruct (agrees_arr_inv _ _ _ H) as [F|[(z & G & F)|(z & G & F)]]; [easy| |].
        -- injection G as ->. exact F.
        -- subst b. simpl in E. lia.
    + destruct b as [|y [|y' b]].
      * split; [discriminate|]. intro H. destruct (agrees_arr_inv _ _ _ H) as [F|[(z & G & F)|(z & G & F)]]; [easy|discriminate|discriminate].
      * rewrite (forallb_close _ (fun z => close z y)) by (intro; apply isclose_iff). split.
        -- intro H. now apply ag_arr_right.
        -- intro H. destruct (agrees_arr_inv _ _ _ H) as [F|[(z & G & F)|(z & G & F)]]; [easy|discriminate|].
           injection G as ->. exact F.
      * split; [discriminate|]. intro H. destruct (agrees_arr_inv _ _ _ H) as [F|[(z & G & F)|(z & G & F)]]; [easy|discriminate|discriminate].
Qed.

Lemma existsb_In k l : existsb (String.eqb k) l = true <-> In k l.
Proof.
  rewrite existsb_exists. split.
  - intros (x & Hx & E). apply String.eqb_eq in E. now subst.
  - intro H. exists k. split; [exact H|apply String.eqb_refl].
Qed.

Lemma same_keys_iff {A B} (a : list (string * A)) (b : list (string * B)) :
  same_keys a b = true <-> (forall k, In k (map fst a) <-> In k (map fst b)).
Proof.
  unfold same_keys. rewrite andb_true_iff, !forallb_forall. split.
  - intros [H1 H2] k. split; intro H; apply existsb_In; auto.
  - intro H. split; intros k Hk; apply existsb_In; now apply H.
Qed.

Lemma almost_equal_iff py a b : almost_equal py a b = true <-> agrees py a b.
Proof.
  revert b. induction a as [x|x|da IH|n] using mval_ind'; intros b.
  - destruct b; simpl; try (split; [intro; now apply ag_other|intro H; inversion H; subst; auto]).
    rewrite isclose_iff. split; [now constructor|]. intro H. inversion H; subst; [assumption|]. exfalso. eapply H0; eauto.
  - destruct b; simpl; try (split; [intro; now apply ag_other|intro H; inversion H; subst; auto]).
    apply allclose_iff.
  - destruct b as [y|y|db|m]; simpl; try (split; [intro; now apply ag_other|intro H; inversion H; subst; auto]).
    rewrite andb_true_iff, same_keys_iff.
    match goal with |- _ /\ ?f da = true <-> _ => set (go := f) end.
    assert (G : go da = true <-> (forall k v, In (k, v) da -> exists w, dget k db = Some w /\ agrees py v w)).
    { clear -IH. induction da as [|[k v] l IHl]; simpl.
      - split; [easy|reflexivity].
      - inversion IH as [|? ? Hv Hl]; subst. simpl in Hv. specialize (IHl Hl).
        destruct (dget k db) as [w|] eqn:E.
        + rewrite andb_true_iff, Hv. fold go. rewrite IHl. split.
          * intros [H1 H2] k' v' [Heq|Hin]; [injection Heq as <- <-; eauto|eauto].
          * intro H. split; [|eauto]. destruct (H k v (or_introl eq_refl)) as (w' & E' & A). congruence.
        + split; [discriminate|]. intro H. destruct (H k v (or_introl eq_refl)) as (w' & E' & _). congruence. }
    rewrite G. split.
    + intros [H1 H2]. now apply ag_dict.
    + intro H. inversion H; subst; [now split|]. exfalso. eapply H2; eauto.
  - simpl. destruct b; simpl; (split; [intro; now apply ag_other|intro H; inversion H; subst; auto]).
Qed.

Definition reflexive_on_others (py : mval -> mval -> bool) : Prop :=
  forall n, py (MOther n) (MOther n) = true.

(** Keys distinct at every level. *)
Inductive wf_val : mval -> Prop :=
| wf_f q : wf_val (MFloat q)
| wf_a l : wf_val (MArr l)
| wf_d d : NoDup (dkeys d) -> (forall k v, In (k, v) d -> wf_val v) -> wf_val (MDict d)
| wf_o n : wf_val (MOther n).

Lemma close_refl q : close q q.
Proof.
  unfold close. setoid_replace (q - q)%Q with 0%Q by ring. change (Qabs 0) with 0%Q.
  apply Qmult_le_0_compat; [easy|apply Qabs_nonneg].
Qed.

Lemma agrees_refl py v : reflexive_on_others py -> wf_val v -> agrees py v v.
Proof.
  intro R. induction v as [x|x|d IH|n] using mval_ind'; intro W.
  - constructor. apply close_refl.
  - constructor. induction x; constructor; [apply close_refl|]. apply IHx. constructor.
  - inversion W as [| |? ND Hv|]; subst. apply ag_dict; [tauto|]. intros k v Hin. exists v.
    split; [now apply dget_NoDup_In|]. rewrite Forall_forall in IH. apply (IH (k, v) Hin). eauto.
  - apply ag_other; try (intros ? ? [? ?]; discriminate). apply R.
Qed.

Lemma dget_app {A} (d1 d2 : dict A) k :
  dget k (d1 ++ d2) = match dget k d1 with Some v => Some v | None => dget k d2 end.
Proof. induction d1 as [|[k' v] d1 IH]; simpl; [reflexivity|]. destruct (String.eqb k k'); auto. Qed.

Lemma dget_filter_fresh {A} (d1 d2 : dict A) k : dget k d1 = None ->
  dget k (filter (fun p => negb (dmem (fst p) d1)) d2) = dget k d2.
Proof.
  intro N. induction d2 as [|[k' v] d2 IH]; simpl; [reflexivity|].
  destruct (dmem k' d1) eqn:M; simpl.
  - destruct (String.eqb k k') eqn:E; [|exact IH]. apply String.eqb_eq in E; subst.
    unfold dmem in M. rewrite N in M. discriminate.
  - destruct (String.eqb k k'); auto.
Qed.

Lemma NoDup_app_disjoint {A} (a b : list A) : NoDup a -> NoDup b -> (forall x, In x a -> ~ In x b) -> NoDup (a ++ b).
Proof.
  induction a as [|x a IH]; simpl; [auto|]. intros Na Nb H. inversion Na; subst. constructor.
  - rewrite in_app_iff. intros [I|I]; [contradiction|]. apply (H x); auto.
  - apply IH; auto.
Qed.

Lemma NoDup_map_filter {A B} (f : A -> B) g l : NoDup (map f l) -> NoDup (map f (filter g l)).
Proof.
  induction l as [|x l IH]; simpl; [auto|]. intro N. inversion N; subst. destruct (g x); simpl; [|auto].
  constructor; [|auto]. intro H. apply H1. apply in_map_iff in H as (y & E & F). apply filter_In in F as [F _].
  rewrite <- E. now apply in_map.
Qed.

Section Meta.
  Variable py : mval -> mval -> bool.
  Hypothesis R : reflexive_on_others py.

  Lemma merge2_ok d1 d2 : NoDup (dkeys d1) ->
    (is_ok (merge2 py d1 d2) = true <->
     forall k v w, dget k d1 = Some v -> dget k d2 = Some w -> agrees py v w).
  Proof.
    intro ND. unfold merge2.
    match goal with |- context [forallb ?f d1] => destruct (forallb f d1) eqn:E end; simpl.
    - split; [|reflexivity]. intros _ k v w H1 H2. rewrite forallb_forall in E.
      specialize (E (k, v) (dget_In _ _ _ H1)). simpl in E. rewrite H2 in E. now apply almost_equal_iff.
    - split; [discriminate|]. intro H. exfalso. apply not_true_iff_false in E. apply E. apply forallb_forall.
      intros [k v] Hin. simpl. destruct (dget k d2) as [w|] eqn:G; [|reflexivity].
      apply almost_equal_iff. apply (H k v w); [now apply dget_NoDup_In|exact G].
  Qed.

  Lemma merge2_result d1 d2 m : NoDup (dkeys d1) -> NoDup (dkeys d2) -> merge2 py d1 d2 = Ok m ->
    NoDup (dkeys m) /\ forall k, dget k m = match dget k d1 with Some v => Some v | None => dget k d2 end.
  Proof.
    intros N1 N2 H. unfold merge2 in H. destruct (forallb _ d1); [|discriminate]. injection H as <-. split.
    - unfold dkeys. rewrite map_app. apply NoDup_app_disjoint; [exact N1|now apply NoDup_map_filter|].
      intros x Hx Hy. apply in_map_iff in Hy as ([k v] & E & F). simpl in E. subst k. apply filter_In in F as [_ F].
      simpl in F. unfold dmem in F. apply dget_Some_keys in Hx as [v' Hv]. rewrite Hv in F. discriminate.
    - intro k. rewrite dget_app. destruct (dget k d1) eqn:G; [reflexivity|]. now apply dget_filter_fresh.
  Qed.

  Fixpoint first_def (k : string) (ds : list (dict mval)) : option mval :=
    match ds with
    | [] => None
    | d :: r => match dget k d with Some v => Some v | None => first_def k r end
    end.

  Definition wf_dict (d : dict mval) : Prop := NoDup (dkeys d) /\ forall k v, dget k d = Some v -> wf_val v.

  Lemma merge2_err d1 d2 e : merge2 py d1 d2 = Err e -> e = ValueError.
  Proof. unfold merge2. destruct (forallb _ d1); [discriminate|]. congruence. Qed.

  Lemma fold_err ds e : fold_left (fun acc d => rbind acc (fun m => merge2 py m d)) ds (Err e) = Err e.
  Proof. induction ds; simpl; auto. Qed.

  Lemma fold_merge ds : forall m, wf_dict m -> Forall wf_dict ds ->
    let r := fold_left (fun acc d => rbind acc (fun m => merge2 py m d)) ds (Ok m) in
    (is_ok r = true <->
     forall d k w, In d ds -> dget k d = Some w -> exists v, first_def k (m :: ds) = Some v /\ agrees py v w) /\
    (forall x, r = Ok x -> NoDup (dkeys x) /\ forall k, dget k x = first_def k (m :: ds)) /\
    (forall e, r = Err e -> e = ValueError).
  Proof.
    induction ds as [|d ds IH]; intros m [Wm Vm] Wd; cbn zeta.
    - simpl. split; [split; [intros _ d k w []|reflexivity]|]. split; [|discriminate].
      intros x [= <-]. split; [exact Wm|]. intro k. destruct (dget k m); reflexivity.
    - inversion Wd as [|? ? [Nd Vd] Wds]; subst. cbn [fold_left rbind].
      pose proof (merge2_ok m d Wm) as OK. destruct (merge2 py m d) as [m'|e] eqn:E.
      + destruct (merge2_result m d m' Wm Nd E) as [N' G'].
        assert (W' : wf_dict m').
        { split; [exact N'|]. intros k v Hv. rewrite G' in Hv. destruct (dget k m) eqn:Q; [injection Hv as ->; eauto|eauto]. }
        destruct (IH m' W' Wds) as (H1 & H2 & H3). cbn zeta in H1, H2, H3. rewrite H1. clear H1.
        assert (FD : forall k, first_def k (m' :: ds) = first_def k (m :: d :: ds)).
        { intro k. simpl. rewrite G'. destruct (dget k m); [reflexivity|]. destruct (dget k d); reflexivity. }
        split; [|split; [|exact H3]].
        * split.
          -- intros H d' k w [<-|Hin] Hw.
             ++ simpl. destruct (dget k m) as [v|] eqn:Q.
                ** exists v. split; [reflexivity|]. apply OK with (k := k); auto.
                ** rewrite Hw. exists w. split; [reflexivity|]. apply agrees_refl; eauto.
             ++ rewrite <- FD. now apply H with (d := d').
          -- intros H d' k w Hin Hw. rewrite FD. apply H with (d := d'); [now right|exact Hw].
        * intros x Hx. destruct (H2 x Hx) as [A B]. split; [exact A|]. intro k. now rewrite B, FD.
      + rewrite fold_err. simpl. split; [|split; [discriminate|]].
        * split; [discriminate|]. intro H. exfalso. simpl in OK. apply Bool.diff_false_true. apply OK.
          intros k v w Hv Hw. destruct (H d k w (or_introl eq_refl) Hw) as (v' & F & A). simpl in F. rewrite Hv in F. congruence.
        * intros e' [= <-]. now apply (merge2_err m d).
  Qed.

  Lemma merge_meta_iff ds : ds <> [] -> Forall wf_dict ds ->
    (is_ok (merge_meta_data py ds) = true <->
     forall d k w, In d ds -> dget k d = Some w -> exists v, first_def k ds = Some v /\ agrees py v w) /\
    (forall x, merge_meta_data py ds = Ok x -> NoDup (dkeys x) /\ forall k, dget k x = first_def k ds) /\
    (forall e, merge_meta_data py ds = Err e -> e = ValueError).
  Proof.
    intros N W. destruct ds as [|d0 r]; [congruence|]. unfold merge_meta_data.
    assert (W0 : wf_dict d0) by (now inversion W).
    destruct (fold_merge (d0 :: r) d0 W0 W) as (H1 & H2 & H3). cbn zeta in H1, H2, H3.
    assert (FD : forall k, first_def k (d0 :: d0 :: r) = first_def k (d0 :: r)).
    { intro k. simpl. destruct (dget k d0); reflexivity. }
    split; [|split; [|exact H3]].
    - rewrite H1. split; intros H d k w Hin Hw; specialize (H d k w Hin Hw); now rewrite FD in *.
    - intros x Hx. destruct (H2 x Hx) as [A B]. split; [exact A|]. intro k. now rewrite B, FD.
  Qed.
End Meta.

(** * C11: hierarchies *)
Section NodeInd.
  Variable P : node -> Prop.
  Hypothesis HV : forall s, P (Var s).
  Hypothesis HC : forall l, Forall (fun p => P (snd p)) l -> P (Cls l).
  Fixpoint node_ind' (n : node) : P n :=
    match n with
    | Var s => HV s
    | Cls l => HC l ((fix go (l : list (string * node)) : Forall (fun p => P (snd p)) l :=
                        match l with
                        | [] => Forall_nil _
                        | p :: l' => Forall_cons p (node_ind' (snd p)) (go l')
                        end) l)
    end.
End NodeInd.

(** Specification vocabulary: what stands at a path. *)
Fixpoint node_at (n : node) (p : list string) : option node :=
  match p with
  | [] => Some n
  | k :: p' => match n with
               | Cls l => match dget k l with Some m => node_at m p' | None => None end
               | Var _ => None
               end
  end.
Definition lookup (h : hierarchy) (p : list string) : option string :=
  match node_at (Cls h) p with Some (Var s) => Some s | _ => None end.
Definition is_class_at (h : hierarchy) (p : list string) : Prop := exists l, node_at (Cls h) p = Some (Cls l).

(** Attribute names are distinct in every class. *)
Inductive wf_node : node -> Prop :=
| wf_var s : wf_node (Var s)
| wf_cls l : NoDup (dkeys l) -> (forall k v, dget k l = Some v -> wf_node v) -> wf_node (Cls l).

(** Same path, different strings. *)
Definition conflict (a b : hierarchy) : Prop :=
  exists p s t, lookup a p = Some s /\ lookup b p = Some t /\ s <> t.
(** Same path, a variable in one and a class in the other. *)
Definition kind_clash (a b : hierarchy) : Prop :=
  exists p s, (lookup a p = Some s /\ is_class_at b p) \/ (is_class_at a p /\ lookup b p = Some s).

Definition lookn (n : node) (p : list string) : option string :=
  match node_at n p with Some (Var s) => Some s | _ => None end.

Lemma compare_iff a : forall b, wf_node a ->
  (compare_node a b = true <-> forall p s t, lookn a p = Some s -> lookn b p = Some t -> s = t).
Proof.
  induction a as [s|la IH] using node_ind'; intros b W.
  - destruct b as [t|lb]; simpl.
    + rewrite String.eqb_eq. split.
      * intros -> [|k p] x y; unfold lookn; simpl; congruence.
      * intro H. apply (H [] s t); reflexivity.
    + split; [|reflexivity]. intros _ [|k p] x y; unfold lookn; simpl; try discriminate.
  - destruct b as [t|lb].
    { simpl. split; [|reflexivity]. intros _ [|k p] x y; unfold lookn; simpl; discriminate. }
    inversion W as [|? ND Wv]; subst. simpl.
    match goal with |- ?f la = true <-> _ => set (go := f) end.
    assert (G : go la = true <-> forall k v w, In (k, v) la -> dget k lb = Some w -> compare_node v w = true).
    { clear. induction la as [|[k v] l IHl]; simpl; [split; [easy|reflexivity]|].
      destruct (dget k lb) as [w|] eqn:E.
      - rewrite andb_true_iff. fold go. rewrite IHl. split.
        + intros [H1 H2] k' v' w' [Heq|Hin] Hw; [injection Heq as <- <-; congruence|eauto].
        + intro H. split; eauto.
      - fold go. rewrite IHl. split; [intros H k' v' w' [Heq|Hin] Hw; [injection Heq as <- <-; congruence|eauto]|eauto]. }
    rewrite G. rewrite Forall_forall in IH. split.
    + intros H [|k p] s t; unfold lookn; simpl; [discriminate|].
      destruct (dget k la) as [v|] eqn:Ea; [|discriminate]. destruct (dget k lb) as [w|] eqn:Eb; [|discriminate].
      intros Hs Ht. pose proof (H k v w (dget_In _ _ _ Ea) Eb) as C.
      pose proof (IH (k, v) (dget_In _ _ _ Ea)) as I. cbn [snd] in I. apply (proj1 (I w (Wv k v Ea)) C p); assumption.
    + intros H k v w Hin Hw. pose proof (IH (k, v) Hin) as I. cbn [snd] in I. apply (proj2 (I w (Wv k v (dget_NoDup_In k v la ND Hin)))).
      intros p s t Hs Ht. apply (H (k :: p)); unfold lookn; simpl.
      * rewrite (dget_NoDup_In k v la ND Hin). exact Hs.
      * rewrite Hw. exact Ht.
Qed.

Lemma compare_conflict a b : wf_node (Cls a) -> (compare a b = true <-> ~ conflict a b).
Proof.
  intro W. unfold compare. rewrite (compare_iff (Cls a) (Cls b) W). unfold conflict, lookup, lookn. split.
  - intros H (p & s & t & Hs & Ht & N). apply N. now apply (H p).
  - intros H p s t Hs Ht. destruct (string_dec s t) as [E|E]; [exact E|]. exfalso. apply H. now exists p, s, t.
Qed.

Lemma conflict_sym a b : conflict a b -> conflict b a.
Proof. intros (p & s & t & A & B & N). exists p, t, s. auto. Qed.

(** What a merge stores under one key. *)
Definition join (a b : option node) : option node :=
  match a, b with
  | None, x => x
  | Some x, None => Some x
  | Some (Var s), Some (Var _) => Some (Var s)
  | Some _, Some (Var t) => Some (Var t)
  | Some (Cls la), Some (Cls lb) => Some (Cls (merge_into (Cls lb) la))
  | Some _, Some (Cls lb) => Some (Cls lb)
  end.

Definition merge_step (acc : hierarchy) (kv : string * node) : hierarchy :=
  match snd kv with
  | Var s => match dget (fst kv) acc with Some (Var _) => acc | _ => dset (fst kv) (Var s) acc end
  | Cls lv => match dget (fst kv) acc with
              | Some (Cls ab) => dset (fst kv) (Cls (merge_into (Cls lv) ab)) acc
              | _ => dset (fst kv) (Cls lv) acc
              end
  end.

Lemma merge_into_fold lb base : merge_into (Cls lb) base = fold_left merge_step lb base.
Proof.
  cbn [merge_into]. revert base. induction lb as [|[k v] lb IH]; intro base; [reflexivity|].
  cbn [fold_left]. rewrite <- IH. destruct v; reflexivity.
Qed.

Lemma merge_step_get acc k v x :
  dget x (merge_step acc (k, v)) = if String.eqb x k then join (dget k acc) (Some v) else dget x acc.
Proof.
  unfold merge_step. cbn [fst snd]. destruct (String.eqb x k) eqn:E.
  - apply String.eqb_eq in E. subst x. destruct v as [s|lv]; destruct (dget k acc) as [[t|ab]|] eqn:G; simpl;
      rewrite ?dget_dset_same; try reflexivity. exact G.
  - apply String.eqb_neq in E. destruct v as [s|lv]; destruct (dget k acc) as [[t|ab]|]; simpl;
      rewrite ?dget_dset_other by exact E; reflexivity.
Qed.

Lemma dget_merge lb : forall base k, NoDup (dkeys lb) ->
  dget k (merge_into (Cls lb) base) = join (dget k base) (dget k lb).
Proof.
  intros base k ND. rewrite merge_into_fold. revert base. induction lb as [|[k' v] lb IH]; intro base.
  - simpl. destruct (dget k base) as [[s|l]|]; reflexivity.
  - inversion ND as [|? ? Nk Nl]; subst. cbn [fold_left]. rewrite (IH Nl), merge_step_get.
    cbn [dget]. destruct (String.eqb k k') eqn:E; [|reflexivity].
    apply String.eqb_eq in E. subst k'. apply dget_None_keys in Nk. rewrite Nk.
    destruct (join (dget k base) (Some v)) as [[s|l]|] eqn:J; try reflexivity.
Qed.

Lemma NoDup_dset {A} k (v : A) d : NoDup (dkeys d) -> NoDup (dkeys (dset k v d)).
Proof.
  intro N. destruct (in_dec string_dec k (dkeys d)) as [H|H].
  - now rewrite dkeys_dset_mem.
  - rewrite dset_new by exact H. unfold dkeys. rewrite map_app. simpl.
    apply NoDup_app_disjoint; [exact N|repeat constructor; simpl; tauto|].
    intros x Hx [<-|[]]. contradiction.
Qed.

Lemma merge_NoDup lb base : NoDup (dkeys base) -> NoDup (dkeys (merge_into (Cls lb) base)).
Proof.
  intro N. rewrite merge_into_fold. revert base N. induction lb as [|[k v] lb IH]; intros base N; [exact N|].
  cbn [fold_left]. apply IH. unfold merge_step. cbn [fst snd].
  destruct v; destruct (dget k base) as [[|]|]; try exact N; now apply NoDup_dset.
Qed.

Lemma merge_wf b : forall base, wf_node b -> wf_node (Cls base) -> wf_node (Cls (merge_into b base)).
Proof.
  induction b as [s|lb IH] using node_ind'; intros base Wb Wa; [exact Wa|].
  inversion Wb as [|? Nb Vb]; subst. inversion Wa as [|? Na Va]; subst. constructor.
  - now apply merge_NoDup.
  - intros k v Hv. rewrite dget_merge in Hv by exact Nb.
    destruct (dget k base) as [[s|la]|] eqn:Ea, (dget k lb) as [[t|lv]|] eqn:Eb; simpl in Hv;
      try (injection Hv as <-; solve [constructor | eapply Va; eauto | eapply Vb; eauto]); try discriminate.
    injection Hv as <-. rewrite Forall_forall in IH. apply (IH (k, Cls lv) (dget_In _ _ _ Eb)); [eapply Vb; eauto|eapply Va; eauto].
Qed.

(** Sub-hierarchies inherit absence of clashes. *)
Lemma no_clash_sub la lb k a' b' : ~ kind_clash la lb -> dget k la = Some (Cls a') -> dget k lb = Some (Cls b') ->
  ~ kind_clash a' b'.
Proof.
  intros N Ea Eb (p & s & H). apply N. exists (k :: p), s. unfold lookup, is_class_at in *. cbn [node_at].
  rewrite Ea, Eb. destruct H as [[H1 H2]|[H1 H2]]; [left|right]; split; assumption.
Qed.

Ltac fin_case :=
  split; [intro|]; split; intros; try tauto;
  repeat match goal with
         | H : _ \/ _ |- _ => destruct H
         | H : _ /\ _ |- _ => destruct H
         | H : exists _, _ |- _ => destruct H
         end; try discriminate; eauto.

Lemma node_at_merge p : forall la lb, wf_node (Cls la) -> wf_node (Cls lb) -> ~ kind_clash la lb ->
  (forall s, lookup (merge_into (Cls lb) la) p = Some s <->
             lookup la p = Some s \/ (lookup la p = None /\ lookup lb p = Some s)) /\
  (is_class_at (merge_into (Cls lb) la) p <-> is_class_at la p \/ is_class_at lb p).
Proof.
  induction p as [|k p IH]; intros la lb Wa Wb NC.
  - unfold lookup, is_class_at. simpl. split.
    + intro s. intuition discriminate.
    + split; [intros _; left; eauto|intros _; eauto].
  - inversion Wa as [|? Na Va]; subst. inversion Wb as [|? Nb Vb]; subst.
    unfold lookup, is_class_at. cbn [node_at]. rewrite dget_merge by exact Nb.
    destruct (dget k la) as [[s|la']|] eqn:Ea, (dget k lb) as [[t|lb']|] eqn:Eb; cbn [join].
    + split.
      * intro x. destruct (node_at (Var s) p) as [[z|]|] eqn:Q; try (destruct p; simpl in Q; discriminate).
        -- intuition congruence.
        -- destruct p; simpl in *; [discriminate|]. intuition congruence.
      * destruct p; simpl; split; intros; firstorder discriminate.
    + exfalso. apply NC. exists [k], s. left. unfold lookup, is_class_at. simpl. rewrite Ea, Eb. split; [reflexivity|eauto].
    + split; [intro x|]; destruct p; simpl; intuition (try discriminate); firstorder discriminate.
    + exfalso. apply NC. exists [k], t. right. unfold lookup, is_class_at. simpl. rewrite Ea, Eb. split; [eauto|reflexivity].
    + apply IH; [eapply Va; eauto|eapply Vb; eauto|]. eapply no_clash_sub; eauto.
    + fin_case.
    + fin_case.
    + fin_case.
    + fin_case.
Qed.

Definition wf_h (h : hierarchy) : Prop := wf_node (Cls h).

(** Merging a list: invariant of the loop. *)
Definition represents (m : hierarchy) (hs : list hierarchy) : Prop :=
  wf_h m /\
  (forall p s, lookup m p = Some s <-> exists h, In h hs /\ lookup h p = Some s) /\
  (forall p, is_class_at m p <-> exists h, In h hs /\ is_class_at h p).

Definition pairwise (P : hierarchy -> hierarchy -> Prop) (hs : list hierarchy) : Prop :=
  forall a b, In a hs -> In b hs -> P a b.

Lemma represents_no_conflict m hs h all :
  represents m hs -> incl hs all -> In h all -> pairwise (fun a b => ~ conflict a b) all -> ~ conflict m h.
Proof.
  intros (_ & R & _) I Hh P (p & s & t & A & B & N). apply R in A as (g & Hg & A).
  apply (P g h (I _ Hg) Hh). now exists p, s, t.
Qed.
Lemma represents_no_clash m hs h all :
  represents m hs -> incl hs all -> In h all -> pairwise (fun a b => ~ kind_clash a b) all -> ~ kind_clash m h.
Proof.
  intros (_ & R & C) I Hh P (p & s & [[A B]|[A B]]).
  - apply R in A as (g & Hg & A). apply (P g h (I _ Hg) Hh). exists p, s. now left.
  - apply C in A as (g & Hg & A). apply (P g h (I _ Hg) Hh). exists p, s. now right.
Qed.

Lemma merge_two_represents m hs h : represents m hs -> wf_h h -> ~ conflict m h -> ~ kind_clash m h ->
  exists m', merge_two m h = Ok m' /\ represents m' (h :: hs).
Proof.
  intros (W & R & C) Wh NC NK. unfold merge_two.
  assert (E : compare m h = true) by (apply compare_conflict; assumption). rewrite E.
  eexists. split; [reflexivity|]. split; [now apply merge_wf|]. split.
  - intros p s. destruct (node_at_merge p m h W Wh NK) as [L _]. rewrite L, R. split.
    + intros [(g & Hg & A)|[_ A]]; [exists g; split; [now right|exact A]|exists h; split; [now left|exact A]].
    + intros (g & [<-|Hg] & A); [|left; eauto].
      destruct (lookup m p) as [t|] eqn:Q.
      * left. apply R. replace s with t; [exact Q|]. destruct (string_dec t s) as [E'|E']; [exact E'|].
        exfalso. apply NC. now exists p, t, s.
      * right. auto.
  - intro p. destruct (node_at_merge p m h W Wh NK) as [_ L]. rewrite L, C. split.
    + intros [(g & Hg & A)|A]; [exists g; split; [now right|exact A]|exists h; split; [now left|exact A]].
    + intros (g & [<-|Hg] & A); [now right|left; eauto].
Qed.

Lemma fold_represents hs : forall m done all,
  represents m done -> incl done all -> incl hs all -> Forall wf_h hs ->
  pairwise (fun a b => ~ conflict a b) all -> pairwise (fun a b => ~ kind_clash a b) all ->
  exists m', fold_left (fun acc h => rbind acc (fun m => merge_two m h)) hs (Ok m) = Ok m' /\
             represents m' (rev hs ++ done).
Proof.
  induction hs as [|h hs IH]; intros m done all Rm I1 I2 W P1 P2.
  - exists m. split; [reflexivity|exact Rm].
  - inversion W; subst. cbn [fold_left rbind].
    assert (Hh : In h all) by (apply I2; now left).
    destruct (merge_two_represents m done h Rm H1) as (m' & E & R').
    + eapply represents_no_conflict; eauto.
    + eapply represents_no_clash; eauto.
    + rewrite E. destruct (IH m' (h :: done) all R') as (m2 & E2 & R2); auto.
      * intros x [<-|Hx]; auto.
      * intros x Hx. apply I2. now right.
      * exists m2. split; [exact E2|]. simpl. now rewrite <- app_assoc.
Qed.

Lemma compare_pairs_iff hs : Forall wf_h hs ->
  (compare_pairs hs = true <-> ForallOrdPairs (fun a b => ~ conflict a b) hs).
Proof.
  induction hs as [|h hs IH]; intro W; simpl; [split; [constructor|reflexivity]|].
  inversion W as [|? ? Wh Ws]; subst. rewrite andb_true_iff, IH, forallb_forall by exact Ws. split.
  - intros [H1 H2]. constructor; [|exact H2]. apply Forall_forall. intros g Hg. specialize (H1 g Hg).
    apply andb_true_iff in H1 as [H1 _]. now apply compare_conflict in H1.
  - intro H. inversion H; subst. split; [|assumption]. intros g Hg. rewrite Forall_forall in H2, Ws.
    apply andb_true_iff. split; apply compare_conflict; [exact Wh|now apply H2|now apply Ws|]. intro C. apply (H2 g Hg). now apply conflict_sym.
Qed.

Lemma no_self_conflict h : ~ conflict h h.
Proof. intros (p & s & t & A & B & N). congruence. Qed.
Lemma no_self_clash h : ~ kind_clash h h.
Proof.
  intros (p & s & [[A [l B]]|[[l B] A]]); unfold lookup in A; rewrite B in A; discriminate.
Qed.

Lemma clash_sym a b : kind_clash a b -> kind_clash b a.
Proof. intros (p & s & [[A B]|[A B]]); exists p, s; [right|left]; auto. Qed.

Lemma ordpairs_pairwise (P : hierarchy -> hierarchy -> Prop) hs :
  (forall a, P a a) -> (forall a b, P a b -> P b a) -> ForallOrdPairs P hs -> pairwise P hs.
Proof.
  intros Rf Sy H a b Ha Hb.
  induction H as [|x l Hx Hl IH]; [contradiction|]. rewrite Forall_forall in Hx.
  destruct Ha as [<-|Ha], Hb as [<-|Hb]; auto.
Qed.

Lemma merge_union hs m : Forall wf_h hs -> ForallOrdPairs (fun a b => ~ kind_clash a b) hs ->
  merge_hierarchies hs = Ok m ->
  wf_h m /\ forall p s, lookup m p = Some s <-> exists h, In h hs /\ lookup h p = Some s.
Proof.
  intros W K H. unfold merge_hierarchies in H. destruct (compare_pairs hs) eqn:E; [|discriminate].
  destruct hs as [|h0 hs]; [discriminate|]. apply compare_pairs_iff in E; [|exact W].
  assert (P1 : pairwise (fun a b => ~ conflict a b) (h0 :: hs)).
  { apply ordpairs_pairwise; [apply no_self_conflict| |exact E]. intros a b N C. apply N. now apply conflict_sym. }
  assert (P2 : pairwise (fun a b => ~ kind_clash a b) (h0 :: hs)).
  { apply ordpairs_pairwise; [apply no_self_clash| |exact K]. intros a b N C. apply N. now apply clash_sym. }
  assert (R0 : represents h0 [h0]).
  { inversion W; subst. split; [assumption|]. split.
    - intros p s. split; [intro A; exists h0; simpl; auto|]. intros (g & [<-|[]] & A). exact A.
    - intro p. split; [intro A; exists h0; simpl; auto|]. intros (g & [<-|[]] & A). exact A. }
  destruct (fold_represents (h0 :: hs) h0 [h0] (h0 :: hs) R0) as (m' & E' & (Wm & Rm & _)); auto.
  - intros x [<-|[]]. now left.
  - apply incl_refl.
  - rewrite E' in H. injection H as <-. split; [exact Wm|]. intros p s. rewrite Rm. split.
    + intros (g & Hg & A). exists g. split; [|exact A]. apply in_app_or in Hg as [Hg|[<-|[]]]; [now apply in_rev|now left].
    + intros (g & Hg & A). exists g. split; [|exact A]. apply in_or_app. left. now apply in_rev in Hg.
Qed.

Lemma merge_accepts hs : hs <> [] -> Forall wf_h hs -> ForallOrdPairs (fun a b => ~ kind_clash a b) hs ->
  (is_ok (merge_hierarchies hs) = true <-> ForallOrdPairs (fun a b => ~ conflict a b) hs).
Proof.
  intros NE W K. unfold merge_hierarchies. rewrite <- compare_pairs_iff by exact W.
  destruct (compare_pairs hs) eqn:E; [|split; discriminate]. split; [reflexivity|]. intros _.
  destruct hs as [|h0 hs]; [congruence|]. apply compare_pairs_iff in E; [|exact W].
  assert (P1 : pairwise (fun a b => ~ conflict a b) (h0 :: hs)).
  { apply ordpairs_pairwise; [apply no_self_conflict| |exact E]. intros a b N C. apply N. now apply conflict_sym. }
  assert (P2 : pairwise (fun a b => ~ kind_clash a b) (h0 :: hs)).
  { apply ordpairs_pairwise; [apply no_self_clash| |exact K]. intros a b N C. apply N. now apply clash_sym. }
  assert (R0 : represents h0 [h0]).
  { inversion W; subst. split; [assumption|]. split.
    - intros p s. split; [intro A; exists h0; simpl; auto|]. intros (g & [<-|[]] & A). exact A.
    - intro p. split; [intro A; exists h0; simpl; auto|]. intros (g & [<-|[]] & A). exact A. }
  destruct (fold_represents (h0 :: hs) h0 [h0] (h0 :: hs) R0) as (m' & E' & _); auto.
  - intros x [<-|[]]. now left.
  - apply incl_refl.
  - now rewrite E'.
Qed.

Lemma merge_rejects hs : Forall wf_h hs -> ~ ForallOrdPairs (fun a b => ~ conflict a b) hs ->
  merge_hierarchies hs = Err ValueError.
Proof.
  intros W N. unfold merge_hierarchies. destruct (compare_pairs hs) eqn:E; [|reflexivity].
  exfalso. apply N. now apply compare_pairs_iff.
Qed.
