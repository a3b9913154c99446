(** Specification of phase linking and proofs about [LinkModel]. *)
From Coq Require Import QArith Ascii.
From Verif Require Import Base LinkModel.
Open Scope nat_scope.
Open Scope list_scope.
Open Scope string_scope.

(** ** What the options say *)

(** A control that the user keeps static at an end. *)
Definition static (p : phase) (v : string) : Prop := dget (v ++ "_optimize") (info p) = Some (VBool false).

(** The boundary value of a variable is given, and its value. *)
Definition final_value (p : phase) (v : string) (q : Q) : Prop :=
  exists u, dget (v ++ "_final") (info p) = Some (VPair (Some q) u).
Definition initial_value (p : phase) (v : string) (q : Q) : Prop :=
  exists u, dget (v ++ "_initial") (info p) = Some (VPair (Some q) u).

(** The code only notices boundary values different from zero. *)
Definition noticed_final (p : phase) (v : string) : Prop := exists q, final_value p v q /\ ~ (q == 0)%Q.
Definition noticed_initial (p : phase) (v : string) : Prop := exists q, initial_value p v q /\ ~ (q == 0)%Q.

(** The downstream phase refuses a direct connection for [v]. *)
Definition link_option (v : string) : string :=
  if String.eqb v "time" then "time_initial_direct_link" else v ++ "_direct_link".
Definition refuses (p : phase) (v : string) : Prop :=
  dget (link_option v) (info p) = Some (VBool false) \/ dget (link_option v) (info p) = Some VNone.

Definition adjacent (phases : list phase) (p1 p2 : phase) : Prop :=
  exists l r, phases = (l ++ p1 :: p2 :: r)%list.

Definition starts_reserve (reserves : list string) (p : phase) : Prop :=
  exists r, reserves = pname p :: r.

(** When a variable is linked across a boundary, and whether by connection. *)
Inductive link_due (cd : bool) (p1 p2 : phase) : string -> bool -> Prop :=
| due_common v c :
    In v (lvars p1) -> In v (lvars p2) ->
    ~ (static p1 v /\ static p2 v) ->
    ~ (noticed_final p1 v /\ noticed_initial p2 v) ->
    (c = true <-> cd = true /\ ~ refuses p2 v /\ ~ static p2 v /\ ~ noticed_initial p2 v) ->
    link_due cd p1 p2 v c
| due_from_analytic v c :
    In ("initial_" ++ v) (lvars p1) -> In v (lvars p2) ->
    ~ In ("initial_" ++ v) (lvars p2) -> String.prefix "initial_" v = false ->
    (c = true <-> cd = true /\ ~ refuses p2 v) ->
    link_due cd p1 p2 v c.

Inductive constraint_due (cd : bool) (p1 p2 : phase) : string -> string -> bool -> Prop :=
| due_to_analytic v c :
    In v (lvars p1) -> In ("initial_" ++ v) (lvars p2) ->
    (c = true <-> cd = true /\ ~ refuses p2 v) ->
    constraint_due cd p1 p2 v ("initial_" ++ v) c.

(** ** Generic facts *)
Lemma mem_In x l : mem x l = true <-> In x l.
Proof.
  unfold mem. rewrite existsb_exists. split.
  - intros [y [H E]]. apply String.eqb_eq in E. now subst.
  - intro H. exists x. split; [exact H|apply String.eqb_refl].
Qed.

Lemma mem_nIn x l : mem x l = false <-> ~ In x l.
Proof. rewrite <- mem_In. destruct (mem x l); split; congruence. Qed.

Lemma insert_sorted_In x y l : In y (insert_sorted x l) <-> y = x \/ In y l.
Proof.
  induction l as [|z l IH]; cbn [insert_sorted].
  - cbn. intuition.
  - destruct (String.leb x z); cbn [In]; [intuition|]. rewrite IH. cbn [In]. intuition.
Qed.

Lemma sorted_In y l : In y (sorted l) <-> In y l.
Proof.
  unfold sorted. induction l as [|x l IH]; cbn [fold_right In]; [tauto|].
  rewrite insert_sorted_In, IH. intuition.
Qed.

Lemma insert_sorted_len x l : List.length (insert_sorted x l) = S (List.length l).
Proof. induction l as [|y l IH]; cbn [insert_sorted]; [reflexivity|]. destruct (String.leb x y); cbn; [reflexivity|]. now rewrite IH. Qed.

Lemma insert_sorted_NoDup x l : NoDup l -> ~ In x l -> NoDup (insert_sorted x l).
Proof.
  induction l as [|y l IH]; cbn [insert_sorted]; intros N H.
  - constructor; [easy|constructor].
  - destruct (String.leb x y); [now constructor|].
    inversion N; subst. constructor.
    + rewrite insert_sorted_In. intros [->|K]; [apply H; now left|tauto].
    + apply IH; [assumption|]. intro. apply H. now right.
Qed.

Lemma sorted_NoDup l : NoDup l -> NoDup (sorted l).
Proof.
  unfold sorted. induction 1 as [|x l H N IH]; cbn [fold_right]; [constructor|].
  apply insert_sorted_NoDup; [exact IH|]. intro K. apply H. now apply (proj1 (sorted_In x l)).
Qed.

Lemma common_In p1 p2 v : In v (common_vars p1 p2) <-> In v (lvars p1) /\ In v (lvars p2).
Proof. unfold common_vars. rewrite sorted_In, filter_In, mem_In. tauto. Qed.

Lemma initial_split s : startswith_initial s = true -> s = "initial_" ++ removeprefix_initial s.
Proof.
  unfold removeprefix_initial. intro H. rewrite H. revert H. unfold startswith_initial.
  do 8 (destruct s as [|? s]; [cbn; discriminate|]; cbn [String.prefix];
        match goal with |- (if ascii_dec ?a ?b then _ else _) = true -> _ =>
          destruct (ascii_dec a b) as [<-|]; [|discriminate] end).
  intros _. cbn [String.length append]. do 8 f_equal.
  replace (S (S (S (S (S (S (S (S (String.length s)))))))) - 8) with (String.length s) by lia.
  cbn [substring]. clear. induction s as [|a s IH]; cbn; [reflexivity|]. now rewrite <- IH.
Qed.

Lemma initial_app v : startswith_initial ("initial_" ++ v) = true.
Proof. unfold startswith_initial. cbn. now destruct v. Qed.

Lemma initial_inj a b : "initial_" ++ a = "initial_" ++ b -> a = b.
Proof. cbn. now intros [=]. Qed.

Lemma initial_remove v : removeprefix_initial ("initial_" ++ v) = v.
Proof. symmetry. apply initial_inj. apply initial_split. apply initial_app. Qed.

Lemma for_each_In f l acts a :
  for_each f l = Ok acts -> (In a acts <-> exists x b, In x l /\ f x = Ok b /\ In a b).
Proof.
  revert acts. induction l as [|x l IH]; cbn [for_each]; intros acts H.
  - injection H as <-. split; [easy|]. now intros (?&?&?&?).
  - destruct (f x) as [b|] eqn:F; [|discriminate]. cbn in H.
    destruct (for_each f l) as [b2|] eqn:G; [|discriminate]. cbn in H. injection H as <-.
    rewrite in_app_iff. rewrite (IH b2 eq_refl). split.
    + intros [K|(y&c&K)]; [exists x, b; cbn; tauto|exists y, c; cbn; tauto].
    + intros (y&c&[<-|K]&E&I); [left; congruence|right; eauto].
Qed.

Lemma for_each_ok f l acts x : for_each f l = Ok acts -> In x l -> exists b, f x = Ok b.
Proof.
  revert acts. induction l as [|y l IH]; cbn [for_each In]; intros acts H I; [easy|].
  destruct (f y) as [b|] eqn:F; [|discriminate]. cbn in H.
  destruct (for_each f l) as [b2|] eqn:G; [|discriminate].
  destruct I as [<-|I]; [eauto|eapply IH; eauto].
Qed.

Lemma for_each_ok_intro f l : (forall x, In x l -> exists b, f x = Ok b) -> exists acts, for_each f l = Ok acts.
Proof.
  induction l as [|y l IH]; cbn [for_each In]; intro H; [eauto|].
  destruct (H y) as [b ->]; [now left|]. destruct IH as [c ->]; [intros; apply H; now right|].
  cbn. eauto.
Qed.

(** ** The readers of options *)
Lemma is_False_static p v : is_False (get_opt (info p) (v ++ "_optimize")) = true <-> static p v.
Proof.
  unfold get_opt, static. destruct (dget _ _) as [[[]| |]|]; cbn; split; congruence.
Qed.

Lemma noticed_final_iff p v pin :
  get_pair (info p) (v ++ "_final") = Ok pin -> (truthy_num (fst pin) = true <-> noticed_final p v).
Proof.
  unfold get_pair, noticed_final, final_value.
  destruct (dget _ _) as [[b| |x u]|]; intro H; try discriminate; injection H as <-; cbn.
  - destruct x as [q|]; cbn.
    + rewrite negb_true_iff. split.
      * intro K. exists q. split; [eauto|]. now apply Qeq_bool_neq.
      * intros (q'&(u'&[= <- <-])&K). destruct (Qeq_bool q 0) eqn:E; [|reflexivity].
        now apply Qeq_bool_eq in E.
    + split; [discriminate|]. now intros (q'&(u'&[=])&K).
  - split; [discriminate|]. now intros (q'&(u'&[=])&K).
Qed.

Lemma noticed_initial_iff p v pin :
  get_pair (info p) (v ++ "_initial") = Ok pin -> (truthy_num (fst pin) = true <-> noticed_initial p v).
Proof.
  unfold get_pair, noticed_initial, initial_value.
  destruct (dget _ _) as [[b| |x u]|]; intro H; try discriminate; injection H as <-; cbn.
  - destruct x as [q|]; cbn.
    + rewrite negb_true_iff. split.
      * intro K. exists q. split; [eauto|]. now apply Qeq_bool_neq.
      * intros (q'&(u'&[= <- <-])&K). destruct (Qeq_bool q 0) eqn:E; [|reflexivity].
        now apply Qeq_bool_eq in E.
    + split; [discriminate|]. now intros (q'&(u'&[=])&K).
  - split; [discriminate|]. now intros (q'&(u'&[=])&K).
Qed.

Lemma want_connect_iff cd p v : want_connect cd p v = true <-> cd = true /\ ~ refuses p v.
Proof.
  unfold want_connect, refuses, direct_key, link_option.
  destruct (dget _ _) as [[[]| |x u]|]; destruct cd; cbn; split; try tauto; try congruence;
    (intros [H1 H2]; try discriminate; exfalso; apply H2; tauto) || (intros _; split; [reflexivity|]; intros [H|H]; discriminate) || idtac.
Qed.

Lemma scaling_acts c v p1 p2 o k s a :
  scaling_if c v p1 p2 o = Ok (k, s) -> In a s -> exists w, a = AInputInitialFalse (pname p2) w.
Proof.
  unfold scaling_if. destruct c; [intros [= <- <-]; easy|].
  destruct (read_opt2 o) as [o2|]; cbn; [|discriminate]. unfold find_scaling.
  set (var := if _ && _ && _ then "time" else v).
  match goal with |- (if ?b then Ok (no_kwargs, []) else _) = _ -> _ =>
    destruct b; [intros [= <- <-]; easy|] end.
  match goal with |- rbind ?r _ = _ -> _ => destruct r as [rr|]; cbn; [|discriminate] end.
  intros [= <- <-]. match goal with |- In a (if ?b then _ else _) -> _ => destruct b; [|easy] end.
  intros [<-|[]]. eauto.
Qed.

Lemma scaling_no_link c v p1 p2 o k s :
  scaling_if c v p1 p2 o = Ok (k, s) ->
  (forall n1 n2 w d kw, ~ In (ALink n1 n2 w d kw) s) /\ (forall n1 n2 w w' d kw, ~ In (AConstraint n1 n2 w w' d kw) s).
Proof.
  intro H. split; intros * I; destruct (scaling_acts _ _ _ _ _ _ _ _ H I) as [? [=]].
Qed.

(** ** One boundary *)
Lemma link_common_spec cd p1 p2 v b n1 n2 w c :
  link_common cd p1 p2 v = Ok b ->
  ((exists kw, In (ALink n1 n2 w c kw) b) <->
   n1 = pname p1 /\ n2 = pname p2 /\ w = v /\
   ~ (static p1 v /\ static p2 v) /\ ~ (noticed_final p1 v /\ noticed_initial p2 v) /\
   (c = true <-> cd = true /\ ~ refuses p2 v /\ ~ static p2 v /\ ~ noticed_initial p2 v)).
Proof.
  unfold link_common.
  destruct (is_False (get_opt (info p1) (v ++ "_optimize")) && is_False (get_opt (info p2) (v ++ "_optimize"))) eqn:S.
  - intros [= <-]. apply andb_true_iff in S as [S1 S2].
    apply is_False_static in S1. apply is_False_static in S2. cbn. split; [now intros []|tauto].
  - destruct (get_pair (info p1) (v ++ "_final")) as [pin1|] eqn:P1; [|discriminate]. cbn [rbind].
    destruct (get_pair (info p2) (v ++ "_initial")) as [pin2|] eqn:P2; [|discriminate]. cbn [rbind].
    pose proof (noticed_final_iff _ _ _ P1) as F. pose proof (noticed_initial_iff _ _ _ P2) as I.
    assert (S' : ~ (static p1 v /\ static p2 v)).
    { rewrite <- !is_False_static, <- andb_true_iff. congruence. }
    destruct (truthy_num (fst pin1) && truthy_num (fst pin2)) eqn:T.
    + intros [= <-]. apply andb_true_iff in T as [T1 T2]. cbn. split; [now intros []|]. tauto.
    + assert (T' : ~ (noticed_final p1 v /\ noticed_initial p2 v)).
      { rewrite <- F, <- I, <- andb_true_iff. congruence. }
      match goal with |- context [scaling_if ?x v p1 p2 _] => set (connect := x) end.
      assert (C : connect = true <-> cd = true /\ ~ refuses p2 v /\ ~ static p2 v /\ ~ noticed_initial p2 v).
      { subst connect. rewrite <- is_False_static, <- I.
        destruct (is_False (get_opt (info p2) _)); [split; [discriminate|tauto]|].
        destruct (truthy_num (fst pin2)); [split; [discriminate|tauto]|].
        rewrite want_connect_iff. intuition congruence. }
      clearbody connect.
      destruct (scaling_if connect v p1 p2 _) as [[k s]|] eqn:K; [|discriminate]. cbn.
      intros [= <-]. pose proof (proj1 (scaling_no_link _ _ _ _ _ _ _ K)) as N. split.
      * intros [kw J]. apply in_app_iff in J as [J|[J|[]]]; [now apply N in J|].
        injection J as <- <- <- <- <-. tauto.
      * intros (->&->&->&_&_&E). exists k. apply in_app_iff. right. left.
        f_equal. apply eq_true_iff_eq. rewrite C, E. tauto.
Qed.

Lemma link_common_no_constraint cd p1 p2 v b n1 n2 w w' c kw :
  link_common cd p1 p2 v = Ok b -> ~ In (AConstraint n1 n2 w w' c kw) b.
Proof.
  unfold link_common. destruct (_ && _); [intros [= <-]; easy|].
  destruct (get_pair (info p1) _) as [pin1|]; [|discriminate]. cbn [rbind].
  destruct (get_pair (info p2) _) as [pin2|]; [|discriminate]. cbn [rbind].
  destruct (_ && _); [intros [= <-]; easy|].
  match goal with |- rbind ?r _ = _ -> _ => destruct r as [[k s]|] eqn:K; cbn; [|discriminate] end.
  intros [= <-]. rewrite in_app_iff. intros [J|[J|[]]]; [|discriminate].
  now apply (proj2 (scaling_no_link _ _ _ _ _ _ _ K)) in J.
Qed.

Lemma link_down_spec cd p1 p2 o u b n1 n2 w w' c :
  link_down cd p1 p2 o ("initial_" ++ u) = Ok b ->
  ((exists kw, In (AConstraint n1 n2 w w' c kw) b) <->
   n1 = pname p1 /\ n2 = pname p2 /\ w = u /\ w' = "initial_" ++ u /\ In u (lvars p1) /\
   (c = true <-> cd = true /\ ~ refuses p2 u)).
Proof.
  unfold link_down. rewrite initial_remove.
  destruct (mem u (lvars p1)) eqn:M; cbn [negb].
  - apply mem_In in M. pose proof (want_connect_iff cd p2 u) as C.
    match goal with |- rbind ?r _ = _ -> _ => destruct r as [[k s]|] eqn:K; cbn [rbind]; [|discriminate] end.
    intros [= <-]. pose proof (proj2 (scaling_no_link _ _ _ _ _ _ _ K)) as N. split.
    + intros [kw J]. apply in_app_iff in J as [J|[J|[]]]; [now apply N in J|].
      injection J as <- <- <- <- <- <-. tauto.
    + intros (->&->&->&->&_&E). exists k. apply in_app_iff. right. left.
      cbn [fst]. f_equal. apply eq_true_iff_eq. rewrite C, E. tauto.
  - apply mem_nIn in M. intros [= <-]. cbn. split; [now intros []|tauto].
Qed.

Lemma link_down_no_link cd p1 p2 o u b n1 n2 w c kw :
  link_down cd p1 p2 o u = Ok b -> ~ In (ALink n1 n2 w c kw) b.
Proof.
  unfold link_down. destruct (negb _); [intros [= <-]; easy|].
  match goal with |- rbind ?r _ = _ -> _ => destruct r as [[k s]|] eqn:K; cbn; [|discriminate] end.
  intros [= <-]. rewrite in_app_iff. intros [J|[J|[]]]; [|discriminate].
  now apply (proj1 (scaling_no_link _ _ _ _ _ _ _ K)) in J.
Qed.

Lemma link_up_spec cd p1 p2 o u b n1 n2 w c :
  link_up cd p1 p2 o ("initial_" ++ u) = Ok b ->
  ((exists kw, In (ALink n1 n2 w c kw) b) <->
   n1 = pname p1 /\ n2 = pname p2 /\ w = u /\ In u (lvars p2) /\
   ~ In ("initial_" ++ u) (lvars p2) /\ String.prefix "initial_" u = false /\
   (c = true <-> cd = true /\ ~ refuses p2 u)).
Proof.
  unfold link_up. rewrite initial_remove.
  destruct (mem u (lvars p2)) eqn:M; cbn [negb].
  - apply mem_In in M.
    destruct (mem ("initial_" ++ u) (filter startswith_initial (lvars p2)) || mem u (filter startswith_initial (lvars p2))) eqn:D.
    + intros [= <-]. cbn [In]. split; [now intros []|]. intros (_&_&_&_&A&B&_). exfalso.
      apply orb_true_iff in D as [D|D]; apply mem_In, filter_In in D as [D1 D2]; [tauto|].
      unfold startswith_initial in D2. congruence.
    + apply orb_false_iff in D as [D1 D2]. apply mem_nIn in D1. apply mem_nIn in D2.
      rewrite filter_In in D1, D2.
      assert (A : ~ In ("initial_" ++ u) (lvars p2)) by (intro; apply D1; split; [assumption|apply initial_app]).
      assert (B : String.prefix "initial_" u = false).
      { destruct (String.prefix "initial_" u) eqn:E; [|reflexivity]. exfalso. apply D2. now split. }
      pose proof (want_connect_iff cd p2 u) as C.
      match goal with |- rbind ?r _ = _ -> _ => destruct r as [[k s]|] eqn:K; cbn [rbind]; [|discriminate] end.
      intros [= <-]. pose proof (proj1 (scaling_no_link _ _ _ _ _ _ _ K)) as N. split.
      * intros [kw J]. apply in_app_iff in J as [J|[J|[]]]; [now apply N in J|].
        injection J as <- <- <- <- <-. tauto.
      * intros (->&->&->&_&_&_&E). exists k. apply in_app_iff. right. left.
        cbn [fst]. f_equal. apply eq_true_iff_eq. rewrite C, E. tauto.
  - apply mem_nIn in M. intros [= <-]. cbn [In]. split; [now intros []|tauto].
Qed.

Lemma link_up_no_constraint cd p1 p2 o u b n1 n2 w w' c kw :
  link_up cd p1 p2 o u = Ok b -> ~ In (AConstraint n1 n2 w w' c kw) b.
Proof.
  unfold link_up. destruct (negb _); [intros [= <-]; easy|]. destruct (_ || _); [intros [= <-]; easy|].
  match goal with |- rbind ?r _ = _ -> _ => destruct r as [[k s]|] eqn:K; cbn; [|discriminate] end.
  intros [= <-]. rewrite in_app_iff. intros [J|[J|[]]]; [|discriminate].
  now apply (proj2 (scaling_no_link _ _ _ _ _ _ _ K)) in J.
Qed.

Lemma analytic_In s l :
  In s (sorted (filter startswith_initial l)) <-> exists u, s = "initial_" ++ u /\ In s l.
Proof.
  rewrite sorted_In, filter_In. split.
  - intros [I P]. exists (removeprefix_initial s). split; [now apply initial_split|exact I].
  - intros (u&->&I). split; [exact I|apply initial_app].
Qed.

Lemma link_pair_inv cd p1 p2 o acts o' :
  link_pair cd p1 p2 o = Ok (acts, o') ->
  exists a b c, acts = (a ++ b ++ c)%list /\ o' = opt2_after p1 p2 o /\
    for_each (link_common cd p1 p2) (common_vars p1 p2) = Ok a /\
    for_each (link_down cd p1 p2 o') (sorted (filter startswith_initial (lvars p2))) = Ok b /\
    for_each (link_up cd p1 p2 o') (sorted (filter startswith_initial (lvars p1))) = Ok c.
Proof.
  unfold link_pair. intro H.
  destruct (for_each (link_common cd p1 p2) _) as [a|]; [|discriminate]. cbn [rbind] in H.
  destruct (for_each (link_down _ _ _ _) _) as [b|] eqn:B; [|discriminate]. cbn [rbind] in H.
  destruct (for_each (link_up _ _ _ _) _) as [c|] eqn:C; [|discriminate]. cbn [rbind] in H.
  injection H as <- <-. exists a, b, c. auto.
Qed.

Lemma link_pair_links cd p1 p2 o acts o' n1 n2 v c :
  link_pair cd p1 p2 o = Ok (acts, o') ->
  ((exists kw, In (ALink n1 n2 v c kw) acts) <->
   n1 = pname p1 /\ n2 = pname p2 /\ link_due cd p1 p2 v c).
Proof.
  intro H. apply link_pair_inv in H as (la&lb&lc&->&_&A&B&C). split.
  - intros [kw I]. rewrite !in_app_iff in I. destruct I as [I|[I|I]].
    + apply (for_each_In _ _ _ _ A) in I as (x&b&Ix&E&I).
      destruct (proj1 (link_common_spec _ _ _ _ _ n1 n2 v c E)) as (->&->&->&K1&K2&K3); [eauto|].
      apply common_In in Ix as [I1 I2]. split; [reflexivity|]. split; [reflexivity|]. now apply due_common.
    + apply (for_each_In _ _ _ _ B) in I as (x&b&Ix&E&I). now apply (link_down_no_link _ _ _ _ _ _ _ _ _ _ _ E) in I.
    + apply (for_each_In _ _ _ _ C) in I as (x&b&Ix&E&I). apply analytic_In in Ix as (u&->&Iu).
      destruct (proj1 (link_up_spec _ _ _ _ _ _ n1 n2 v c E)) as (->&->&->&K1&K2&K3&K4); [eauto|].
      split; [reflexivity|]. split; [reflexivity|]. now apply due_from_analytic.
  - intros (->&->&D). destruct D as [v c I1 I2 S P Q|v c I1 I2 N P Q].
    + assert (I : In v (common_vars p1 p2)) by (apply common_In; tauto).
      destruct (for_each_ok _ _ _ _ A I) as [b E].
      destruct (proj2 (link_common_spec _ _ _ _ _ (pname p1) (pname p2) v c E)) as [kw J]; [tauto|].
      exists kw. rewrite !in_app_iff. left. apply (for_each_In _ _ _ _ A). eauto.
    + assert (I : In ("initial_" ++ v) (sorted (filter startswith_initial (lvars p1)))) by (apply analytic_In; eauto).
      destruct (for_each_ok _ _ _ _ C I) as [b E].
      destruct (proj2 (link_up_spec _ _ _ _ _ _ (pname p1) (pname p2) v c E)) as [kw J]; [tauto|].
      exists kw. rewrite !in_app_iff. right. right. apply (for_each_In _ _ _ _ C). eauto.
Qed.

Lemma link_pair_constraints cd p1 p2 o acts o' n1 n2 v w c :
  link_pair cd p1 p2 o = Ok (acts, o') ->
  ((exists kw, In (AConstraint n1 n2 v w c kw) acts) <->
   n1 = pname p1 /\ n2 = pname p2 /\ constraint_due cd p1 p2 v w c).
Proof.
  intro H. apply link_pair_inv in H as (la&lb&lc&->&_&A&B&C). split.
  - intros [kw I]. rewrite !in_app_iff in I. destruct I as [I|[I|I]].
    + apply (for_each_In _ _ _ _ A) in I as (x&b&Ix&E&I). now apply (link_common_no_constraint _ _ _ _ _ _ _ _ _ _ _ E) in I.
    + apply (for_each_In _ _ _ _ B) in I as (x&b&Ix&E&I). apply analytic_In in Ix as (u&->&Iu).
      destruct (proj1 (link_down_spec _ _ _ _ _ _ n1 n2 v w c E)) as (->&->&->&->&K1&K2); [eauto|].
      split; [reflexivity|]. split; [reflexivity|]. now constructor.
    + apply (for_each_In _ _ _ _ C) in I as (x&b&Ix&E&I). now apply (link_up_no_constraint _ _ _ _ _ _ _ _ _ _ _ _ E) in I.
  - intros (->&->&D). destruct D as [v c I1 I2 Q].
    assert (I : In ("initial_" ++ v) (sorted (filter startswith_initial (lvars p2)))) by (apply analytic_In; eauto).
    destruct (for_each_ok _ _ _ _ B I) as [b E].
    destruct (proj2 (link_down_spec _ _ _ _ _ _ (pname p1) (pname p2) v ("initial_" ++ v) c E)) as [kw J]; [tauto|].
    exists kw. rewrite !in_app_iff. right. left. apply (for_each_In _ _ _ _ B). eauto.
Qed.

(** ** The whole trajectory *)
Lemma first_reserve_iff rs p : first_reserve rs (pname p) = true <-> starts_reserve rs p.
Proof.
  unfold first_reserve, starts_reserve. destruct rs as [|r rs]; [split; [discriminate|now intros [? ?]]|].
  rewrite String.eqb_eq. split; [intros <-; eauto|now intros [? [=]]].
Qed.

Lemma adjacent_cons p1 p2 rest a b :
  adjacent (p1 :: p2 :: rest) a b <-> (a = p1 /\ b = p2) \/ adjacent (p2 :: rest) a b.
Proof.
  unfold adjacent. split.
  - intros (l&r&E). destruct l as [|x l]; cbn in E.
    + injection E as <- <- <-. now left.
    + injection E as <- E. right. eauto.
  - intros [[-> ->]|(l&r&E)]; [exists [], rest; reflexivity|]. exists (p1 :: l), r. cbn. now rewrite E.
Qed.

Lemma adjacent_single p a b : ~ adjacent [p] a b.
Proof.
  intros (l&r&E). destruct l as [|x l]; [discriminate|]. cbn in E. injection E as _ E. destruct l; discriminate.
Qed.

Lemma link_rest_spec cd rs rest : forall p1 o acts n1 n2,
  link_rest cd rs p1 rest o = Ok acts ->
  (forall v c, (exists kw, In (ALink n1 n2 v c kw) acts) <->
   exists a b, adjacent (p1 :: rest) a b /\ ~ starts_reserve rs b /\
               n1 = pname a /\ n2 = pname b /\ link_due cd a b v c) /\
  (forall v w c, (exists kw, In (AConstraint n1 n2 v w c kw) acts) <->
   exists a b, adjacent (p1 :: rest) a b /\ ~ starts_reserve rs b /\
               n1 = pname a /\ n2 = pname b /\ constraint_due cd a b v w c).
Proof.
  induction rest as [|p2 rest IH]; intros p1 o acts n1 n2; cbn [link_rest].
  - intros [= <-]. split; intros; (split; [now intros []|intros (a&b&A&_); now apply adjacent_single in A]).
  - destruct (first_reserve rs (pname p2)) eqn:F.
    + apply first_reserve_iff in F. intro H. destruct (IH p2 o acts n1 n2 H) as [IH1 IH2].
      split; intros; rewrite IH1 || rewrite IH2; split.
      1,3: intros (a&b&A&K); exists a, b; (split; [|exact K]); apply adjacent_cons; now right.
      1,2: intros (a&b&A&N&K); exists a, b; (split; [|now split]);
           apply adjacent_cons in A as [[-> ->]|A]; [contradiction|exact A].
    + assert (F' : ~ starts_reserve rs p2) by (rewrite <- first_reserve_iff; congruence).
      destruct (link_pair cd p1 p2 o) as [[a1 o1]|] eqn:P; [|discriminate]. cbn [rbind fst snd].
      destruct (link_rest cd rs p2 rest o1) as [a2|] eqn:R; [|discriminate]. cbn [rbind].
      intros [= <-]. destruct (IH p2 o1 a2 n1 n2 R) as [IH1 IH2]. split; intros.
      * pose proof (link_pair_links _ _ _ _ _ _ n1 n2 v c P) as L. split.
        -- intros [kw I]. apply in_app_iff in I as [I|I].
           ++ destruct (proj1 L) as (->&->&D); [eauto|]. exists p1, p2.
              split; [apply adjacent_cons; now left|tauto].
           ++ destruct (proj1 (IH1 v c)) as (a&b&A&K); [eauto|]. exists a, b.
              split; [apply adjacent_cons; now right|exact K].
        -- intros (a&b&A&N&K). apply adjacent_cons in A as [[-> ->]|A].
           ++ destruct (proj2 L K) as [kw I]. exists kw. apply in_app_iff. now left.
           ++ destruct (proj2 (IH1 v c)) as [kw I]; [exists a, b; tauto|]. exists kw. apply in_app_iff. now right.
      * pose proof (link_pair_constraints _ _ _ _ _ _ n1 n2 v w c P) as L. split.
        -- intros [kw I]. apply in_app_iff in I as [I|I].
           ++ destruct (proj1 L) as (->&->&D); [eauto|]. exists p1, p2.
              split; [apply adjacent_cons; now left|tauto].
           ++ destruct (proj1 (IH2 v w c)) as (a&b&A&K); [eauto|]. exists a, b.
              split; [apply adjacent_cons; now right|exact K].
        -- intros (a&b&A&N&K). apply adjacent_cons in A as [[-> ->]|A].
           ++ destruct (proj2 L K) as [kw I]. exists kw. apply in_app_iff. now left.
           ++ destruct (proj2 (IH2 v w c)) as [kw I]; [exists a, b; tauto|]. exists kw. apply in_app_iff. now right.
Qed.

(** Direct connection is possible unless the trajectory runs its phases in parallel over MPI. *)
Definition direct (comm_size : nat) (parallel : bool) (cd : bool) : Prop :=
  cd = false <-> (1 < comm_size /\ parallel = true).

Lemma link_phases_spec size par rs phases acts cd :
  direct size par cd -> link_phases size par rs phases = Ok acts ->
  (forall n1 n2 v c, (exists kw, In (ALink n1 n2 v c kw) acts) <->
   exists a b, adjacent phases a b /\ ~ starts_reserve rs b /\
               n1 = pname a /\ n2 = pname b /\ link_due cd a b v c) /\
  (forall n1 n2 v w c, (exists kw, In (AConstraint n1 n2 v w c kw) acts) <->
   exists a b, adjacent phases a b /\ ~ starts_reserve rs b /\
               n1 = pname a /\ n2 = pname b /\ constraint_due cd a b v w c).
Proof.
  intros D H. unfold link_phases in H.
  assert (E : negb (Nat.ltb 1 size && par) = cd).
  { unfold direct in D. destruct (Nat.ltb_spec 1 size), par, cd; cbn; try reflexivity; exfalso; intuition (try discriminate; try lia). }
  rewrite E in H. destruct phases as [|p rest].
  - injection H as <-. split; intros; (split; [now intros []|intros (a&b&(l&r&A)&_); now destruct l]).
  - destruct rest as [|p2 rest].
    + cbn in H. injection H as <-. split; intros; (split; [now intros []|intros (a&b&A&_); now apply adjacent_single in A]).
    + cbn [List.length Nat.leb] in H. split; intros; now apply (link_rest_spec cd rs (p2 :: rest) p None acts n1 n2 H).
Qed.

(** ** Scaling of the constraints *)

(** [(None, None)] when the option is absent. *)
Definition pair_option (p : phase) (k : string) (x : option Q) (u : option string) : Prop :=
  dget k (info p) = Some (VPair x u) \/ (dget k (info p) = None /\ x = None /\ u = None).

(** The name under which the scaling of [v] is stored: the integration variable is stored as time. *)
Definition stored_as (p1 : phase) (v v' : string) : Prop :=
  (states p1 <> [] /\ v <> "time" /\ v = integ p1 /\ v' = "time") \/
  (~ (states p1 <> [] /\ v <> "time" /\ v = integ p1) /\ v' = v).

(** Time in a phase that integrates something else. *)
Definition time_not_integrated (p1 : phase) (v : string) : Prop :=
  states p1 <> [] /\ v = "time" /\ integ p1 <> "time".

Inductive scaling_due (p1 p2 : phase) (v : string) : kwargs -> Prop :=
| scale_none : time_not_integrated p1 v -> scaling_due p1 p2 v no_kwargs
| scale_time_down r u :
    ~ time_not_integrated p1 v -> stored_as p1 v "time" ->
    pair_option p2 "time_initial_ref" (Some r) u ->
    scaling_due p1 p2 v {| k_ref := Some r; k_ref0 := None; k_units := u |}
| scale_time_up u0 r u :
    ~ time_not_integrated p1 v -> stored_as p1 v "time" ->
    pair_option p2 "time_initial_ref" None u0 -> pair_option p1 "time_duration_ref" r u ->
    scaling_due p1 p2 v {| k_ref := r; k_ref0 := None; k_units := u |}
| scale_up r u r0 u0 :
    stored_as p1 v v -> v <> "time" ->
    pair_option p1 (v ++ "_ref") (Some r) u -> pair_option p1 (v ++ "_ref0") r0 u0 ->
    scaling_due p1 p2 v {| k_ref := Some r; k_ref0 := r0; k_units := u |}
| scale_down u1 r u r0 u0 :
    stored_as p1 v v -> v <> "time" ->
    pair_option p1 (v ++ "_ref") None u1 ->
    pair_option p2 (v ++ "_ref") r u -> pair_option p2 (v ++ "_ref0") r0 u0 ->
    scaling_due p1 p2 v {| k_ref := r; k_ref0 := r0; k_units := u |}.

Lemma get_pair_option p k x u : get_pair (info p) k = Ok (x, u) -> pair_option p k x u.
Proof.
  unfold get_pair, pair_option. destruct (dget k (info p)) as [[]|]; try discriminate; intros [= <- <-]; auto.
Qed.

Lemma analytic_iff p : Nat.ltb (List.length (states p)) 1 = true <-> states p = [].
Proof. rewrite Nat.ltb_lt. destruct (states p); cbn; split; intro; try easy; lia. Qed.

(** The state of the downstream phase whose initial value is released. *)
Definition released (p1 p2 : phase) (opt2 : oval) (v : string) : Prop :=
  opt2 = VNone /\ stored_as p1 v v /\ v <> "time" /\ In v (states p2).

Lemma find_scaling_spec v p1 p2 o kw s :
  find_scaling v p1 p2 o = Ok (kw, s) ->
  scaling_due p1 p2 v kw /\
  (forall a, In a s <-> released p1 p2 o v /\ a = AInputInitialFalse (pname p2) v).
Proof.
  unfold find_scaling.
  set (nA := negb (Nat.ltb (List.length (states p1)) 1)).
  assert (HA : nA = true <-> states p1 <> []).
  { subst nA. rewrite negb_true_iff, <- not_true_iff_false, analytic_iff. tauto. }
  clearbody nA.
  destruct (nA && String.eqb v "time" && negb (String.eqb (integ p1) "time")) eqn:T.
  - intros [= <- <-]. apply andb_true_iff in T as [T T3]. apply andb_true_iff in T as [T1 T2].
    apply String.eqb_eq in T2. apply negb_true_iff, String.eqb_neq in T3.
    split; [apply scale_none; unfold time_not_integrated; tauto|].
    cbn. intro a. split; [easy|]. intros [[_ [_ [N _]]] _]. contradiction.
  - assert (NT : ~ time_not_integrated p1 v).
    { intros (A&B&C). apply HA in A. subst v. rewrite A, String.eqb_refl in T. cbn in T.
      apply negb_false_iff, String.eqb_eq in T. contradiction. }
    destruct (nA && negb (String.eqb v "time") && String.eqb v (integ p1)) eqn:V.
    + apply andb_true_iff in V as [V V3]. apply andb_true_iff in V as [V1 V2].
      apply String.eqb_eq in V3. apply negb_true_iff, String.eqb_neq in V2. apply HA in V1.
      assert (S : stored_as p1 v "time") by (left; tauto).
      assert (NR : ~ released p1 p2 o v).
      { intros (_&[(_&_&_&E)|[E _]]&_); [contradiction|]. apply E. tauto. }
      change (String.eqb "time" "time") with true. cbn [negb andb].
      rewrite andb_false_r. cbn [andb].
      destruct (get_pair (info p2) ("time" ++ "_initial_ref")) as [[x u]|] eqn:G; [|discriminate].
      apply get_pair_option in G. cbn [rbind fst].
      destruct x as [r|].
      * cbn [rbind fst snd]. intros [= <- <-]. split; [eapply scale_time_down; eauto|].
        intro a. split; [easy|tauto].
      * destruct (get_pair (info p1) ("time" ++ "_duration_ref")) as [[x' u']|] eqn:G'; [|discriminate].
        apply get_pair_option in G'. cbn [rbind fst snd]. intros [= <- <-].
        split; [eapply scale_time_up; eauto|]. intro a. split; [easy|tauto].
    + assert (S : stored_as p1 v v).
      { right. split; [|reflexivity]. intros (A&B&C). apply HA in A. apply String.eqb_neq in B.
        rewrite A, B in V. cbn in V. apply String.eqb_neq in V. contradiction. }
      destruct (String.eqb v "time") eqn:E.
      * apply String.eqb_eq in E. subst v. cbn [negb]. rewrite andb_false_r. cbn [andb].
        assert (NR : ~ released p1 p2 o "time") by (intros (_&_&N&_); contradiction).
        destruct (get_pair (info p2) ("time" ++ "_initial_ref")) as [[x u]|] eqn:G; [|discriminate].
        apply get_pair_option in G. cbn [rbind fst].
        destruct x as [r|].
        -- cbn [rbind fst snd]. intros [= <- <-]. split; [eapply scale_time_down; eauto|].
           intro a. split; [easy|tauto].
        -- destruct (get_pair (info p1) ("time" ++ "_duration_ref")) as [[x' u']|] eqn:G'; [|discriminate].
           apply get_pair_option in G'. cbn [rbind fst snd]. intros [= <- <-].
           split; [eapply scale_time_up; eauto|]. intro a. split; [easy|tauto].
      * assert (E' : v <> "time") by now apply String.eqb_neq.
        cbn [negb]. rewrite andb_true_r.
        assert (REL : forall a, In a (if is_None o && mem v (states p2) then [AInputInitialFalse (pname p2) v] else []) <->
                                released p1 p2 o v /\ a = AInputInitialFalse (pname p2) v).
        { intro a. unfold released. rewrite <- (mem_In v (states p2)).
          destruct o as [b0| |x0 u0]; destruct (mem v (states p2)); cbn; intuition congruence. }
        destruct (get_pair (info p1) (v ++ "_ref")) as [[x u]|] eqn:G; [|discriminate].
        apply get_pair_option in G. cbn [rbind fst].
        destruct (get_pair (info p1) (v ++ "_ref0")) as [[x0 u0]|] eqn:G0; [|discriminate].
        apply get_pair_option in G0. cbn [rbind fst].
        destruct x as [r|].
        -- cbn [rbind fst snd]. intros [= <- <-]. split; [|exact REL]. eapply scale_up; eauto.
        -- destruct (get_pair (info p2) (v ++ "_ref")) as [[x' u']|] eqn:G'; [|discriminate].
           apply get_pair_option in G'. cbn [rbind fst].
           destruct (get_pair (info p2) (v ++ "_ref0")) as [[x0' u0']|] eqn:G0'; [|discriminate].
           apply get_pair_option in G0'. cbn [rbind fst snd]. intros [= <- <-].
           split; [|exact REL]. eapply scale_down; eauto.
Qed.

Lemma scaling_if_kw c v p1 p2 o kw s :
  scaling_if c v p1 p2 o = Ok (kw, s) ->
  (c = true -> kw = no_kwargs /\ s = []) /\ (c = false -> scaling_due p1 p2 v kw).
Proof.
  unfold scaling_if. destruct c; intro H.
  - injection H as <- <-. now split.
  - split; [easy|]. intros _. destruct (read_opt2 o); [|discriminate]. cbn in H. now apply find_scaling_spec in H.
Qed.

(** Keyword arguments of every link and constraint of one boundary. *)
Definition good_kw (p1 p2 : phase) (a : action) : Prop :=
  match a with
  | ALink n1 n2 v c kw | AConstraint n1 n2 v _ c kw =>
      n1 = pname p1 /\ n2 = pname p2 /\ if c then kw = no_kwargs else scaling_due p1 p2 v kw
  | AInputInitialFalse n2 v =>
      n2 = pname p2 /\ In v (states p2) /\ v <> "time" /\ stored_as p1 v v
  end.

Lemma scaling_if_released c v p1 p2 o kw s a :
  scaling_if c v p1 p2 o = Ok (kw, s) -> In a s ->
  a = AInputInitialFalse (pname p2) v /\ In v (states p2) /\ v <> "time" /\ stored_as p1 v v.
Proof.
  unfold scaling_if. destruct c; [intros [= <- <-]; easy|].
  destruct (read_opt2 o) as [o2|]; [|discriminate]. cbn [rbind]. intros H I.
  apply find_scaling_spec in H as [_ H]. apply H in I as [(_&R1&R2&R3) ->]. auto.
Qed.

Lemma tail_good p1 p2 c v kw s o a (mk : bool -> kwargs -> action) :
  scaling_if c v p1 p2 o = Ok (kw, s) ->
  (forall c kw, good_kw p1 p2 (mk c kw) = (pname p1 = pname p1 /\ pname p2 = pname p2 /\
                                             if c then kw = no_kwargs else scaling_due p1 p2 v kw)) ->
  In a (s ++ [mk c kw])%list -> good_kw p1 p2 a.
Proof.
  intros K G I. apply in_app_iff in I as [I|[<-|[]]].
  - destruct (scaling_if_released _ _ _ _ _ _ _ _ K I) as (->&?&?&?). cbn. auto.
  - rewrite G. split; [reflexivity|]. split; [reflexivity|].
    apply scaling_if_kw in K as [K1 K2]. destruct c; [now apply K1|now apply K2].
Qed.

Lemma link_pair_kw cd p1 p2 o acts o' a :
  link_pair cd p1 p2 o = Ok (acts, o') -> In a acts -> good_kw p1 p2 a.
Proof.
  intros H I. apply link_pair_inv in H as (la&lb&lc&->&_&A&B&C). rewrite !in_app_iff in I.
  destruct I as [I|[I|I]].
  - apply (for_each_In _ _ _ _ A) in I as (x&b&Ix&E&I). unfold link_common in E.
    destruct (_ && _); [injection E as <-; easy|].
    destruct (get_pair (info p1) _) as [pin1|]; [|discriminate]. cbn [rbind] in E.
    destruct (get_pair (info p2) _) as [pin2|]; [|discriminate]. cbn [rbind] in E.
    destruct (_ && _); [injection E as <-; easy|].
    match type of E with rbind ?r _ = _ => destruct r as [[k s]|] eqn:K; cbn [rbind fst snd] in E; [|discriminate] end.
    injection E as <-. eapply (tail_good _ _ _ _ _ _ _ _ (fun c kw => ALink (pname p1) (pname p2) x c kw) K); [reflexivity|exact I].
  - apply (for_each_In _ _ _ _ B) in I as (x&b&Ix&E&I). unfold link_down in E.
    destruct (negb _); [injection E as <-; easy|].
    match type of E with rbind ?r _ = _ => destruct r as [[k s]|] eqn:K; cbn [rbind fst snd] in E; [|discriminate] end.
    injection E as <-. eapply (tail_good _ _ _ _ _ _ _ _ (fun c kw => AConstraint (pname p1) (pname p2) (removeprefix_initial x) x c kw) K); [reflexivity|exact I].
  - apply (for_each_In _ _ _ _ C) in I as (x&b&Ix&E&I). unfold link_up in E.
    destruct (negb _); [injection E as <-; easy|]. destruct (_ || _); [injection E as <-; easy|].
    match type of E with rbind ?r _ = _ => destruct r as [[k s]|] eqn:K; cbn [rbind fst snd] in E; [|discriminate] end.
    injection E as <-. eapply (tail_good _ _ _ _ _ _ _ _ (fun c kw => ALink (pname p1) (pname p2) (removeprefix_initial x) c kw) K); [reflexivity|exact I].
Qed.

Lemma link_rest_kw cd rs rest : forall p1 o acts a,
  link_rest cd rs p1 rest o = Ok acts -> In a acts ->
  exists x y, adjacent (p1 :: rest) x y /\ good_kw x y a.
Proof.
  induction rest as [|p2 rest IH]; intros p1 o acts a; cbn [link_rest].
  - intros [= <-]. easy.
  - destruct (first_reserve rs (pname p2)).
    + intros H I. destruct (IH _ _ _ _ H I) as (x&y&A&G). exists x, y. split; [apply adjacent_cons; now right|exact G].
    + destruct (link_pair cd p1 p2 o) as [[a1 o1]|] eqn:P; [|discriminate]. cbn [rbind fst snd].
      destruct (link_rest cd rs p2 rest o1) as [a2|] eqn:R; [|discriminate]. cbn [rbind].
      intros [= <-] I. apply in_app_iff in I as [I|I].
      * exists p1, p2. split; [apply adjacent_cons; now left|]. eapply link_pair_kw; eauto.
      * destruct (IH _ _ _ _ R I) as (x&y&A&G). exists x, y. split; [apply adjacent_cons; now right|exact G].
Qed.

Lemma link_phases_kw size par rs phases acts a :
  link_phases size par rs phases = Ok acts -> In a acts ->
  exists x y, adjacent phases x y /\ good_kw x y a.
Proof.
  unfold link_phases. destruct phases as [|p rest]; [intros [= <-]; easy|].
  destruct (Nat.leb _ 1); [intros [= <-]; easy|]. apply link_rest_kw.
Qed.

(** ** No quantity is linked twice *)
Definition links (acts : list action) : list (string * string * string) :=
  flat_map (fun a => match a with ALink n1 n2 v _ _ => [(n1, n2, v)] | _ => [] end) acts.

Definition one_form (p : phase) : Prop :=
  NoDup (lvars p) /\ forall v, In v (lvars p) -> ~ In ("initial_" ++ v) (lvars p).

Lemma links_app a b : links (a ++ b) = (links a ++ links b)%list.
Proof. unfold links. now rewrite flat_map_app. Qed.

Lemma links_In k acts :
  In k (links acts) <-> exists n1 n2 v c kw, k = (n1, n2, v) /\ In (ALink n1 n2 v c kw) acts.
Proof.
  unfold links. rewrite in_flat_map. split.
  - intros ([n1 n2 v c kw| |]&I&J); try easy. destruct J as [<-|[]]. eauto 10.
  - intros (n1&n2&v&c&kw&->&I). eexists. split; [exact I|now left].
Qed.

Lemma NoDup_app_intro {A} (l1 l2 : list A) :
  NoDup l1 -> NoDup l2 -> (forall x, In x l1 -> ~ In x l2) -> NoDup (l1 ++ l2).
Proof.
  induction 1 as [|x l N D IH]; cbn; intros D2 X; [exact D2|]. constructor.
  - rewrite in_app_iff. intros [I|I]; [tauto|]. apply (X x); cbn; auto.
  - apply IH; [exact D2|]. intros y I. apply X. now right.
Qed.

Lemma for_each_links f (g : string -> string * string * string) l acts :
  (forall x b, In x l -> f x = Ok b -> links b = [] \/ links b = [g x]) ->
  (forall x y, In x l -> In y l -> g x = g y -> x = y) ->
  NoDup l -> for_each f l = Ok acts ->
  NoDup (links acts) /\ forall k, In k (links acts) -> exists x, In x l /\ k = g x.
Proof.
  intros F G N. revert acts F G. induction N as [|x l H N IH]; intros acts F G E; cbn [for_each] in E.
  - injection E as <-. cbn. split; [constructor|easy].
  - destruct (f x) as [b|] eqn:Fx; [|discriminate]. cbn [rbind] in E.
    destruct (for_each f l) as [c|] eqn:R; [|discriminate]. cbn [rbind] in E. injection E as <-.
    destruct (IH c) as [D K].
    + intros; apply F; [now right|assumption].
    + intros; apply G; try (now right); assumption.
    + reflexivity.
    + rewrite links_app. destruct (F x b (or_introl eq_refl) Fx) as [->| ->]; cbn [app].
      * split; [exact D|]. intros k I. destruct (K k I) as (y&?&?). exists y. split; [now right|assumption].
      * split.
        -- constructor; [|exact D]. intro I. destruct (K _ I) as (y&Iy&Ey).
           apply G in Ey; [subst; contradiction|now left|now right].
        -- intros k [<-|I]; [exists x; split; [now left|reflexivity]|].
           destruct (K k I) as (y&?&?). exists y. split; [now right|assumption].
Qed.

Lemma links_tail c v p1 p2 o k s n1 n2 w d kw :
  scaling_if c v p1 p2 o = Ok (k, s) -> links (s ++ [ALink n1 n2 w d kw]) = [(n1, n2, w)].
Proof.
  intro K. rewrite links_app. replace (links s) with (@nil (string * string * string)); [reflexivity|].
  destruct (links s) as [|z l] eqn:E; [reflexivity|]. exfalso.
  assert (I : In z (links s)) by (rewrite E; now left).
  apply links_In in I as (?&?&?&?&?&_&I). now apply (proj1 (scaling_no_link _ _ _ _ _ _ _ K)) in I.
Qed.

Lemma link_pair_NoDup cd p1 p2 o acts o' :
  one_form p1 -> one_form p2 -> link_pair cd p1 p2 o = Ok (acts, o') ->
  NoDup (links acts) /\ forall k, In k (links acts) -> exists v, k = (pname p1, pname p2, v).
Proof.
  intros [N1 O1] [N2 O2] H. apply link_pair_inv in H as (la&lb&lc&->&_&A&B&C).
  rewrite !links_app.
  assert (LB : links lb = []).
  { destruct (links lb) as [|z l] eqn:E; [reflexivity|]. exfalso.
    assert (I : In z (links lb)) by (rewrite E; now left).
    apply links_In in I as (?&?&?&?&?&_&I). apply (for_each_In _ _ _ _ B) in I as (xx&b&Ix&Ex&I).
    now apply (link_down_no_link _ _ _ _ _ _ _ _ _ _ _ Ex) in I. }
  rewrite LB. cbn [app].
  destruct (for_each_links (link_common cd p1 p2) (fun v => (pname p1, pname p2, v)) (common_vars p1 p2) la) as [DA KA].
  { intros x b Ix E. unfold link_common in E.
    destruct (_ && _); [injection E as <-; now left|].
    destruct (get_pair (info p1) _) as [pin1|]; [|discriminate]. cbn [rbind] in E.
    destruct (get_pair (info p2) _) as [pin2|]; [|discriminate]. cbn [rbind] in E.
    destruct (_ && _); [injection E as <-; now left|].
    match type of E with rbind ?r _ = _ => destruct r as [[k s]|] eqn:K; cbn [rbind fst snd] in E; [|discriminate] end.
    injection E as <-. right. eapply links_tail; eauto. }
  { intros x y _ _ [=]. assumption. }
  { apply sorted_NoDup. now apply NoDup_filter. }
  { exact A. }
  destruct (for_each_links (link_up cd p1 p2 o') (fun v => (pname p1, pname p2, removeprefix_initial v))
              (sorted (filter startswith_initial (lvars p1))) lc) as [DC KC].
  { intros x b Ix E. unfold link_up in E.
    destruct (negb _); [injection E as <-; now left|]. destruct (_ || _); [injection E as <-; now left|].
    match type of E with rbind ?r _ = _ => destruct r as [[k s]|] eqn:K; cbn [rbind fst snd] in E; [|discriminate] end.
    injection E as <-. right. eapply links_tail; eauto. }
  { intros x y Ix Iy [= E]. apply analytic_In in Ix as (u&->&_). apply analytic_In in Iy as (u'&->&_).
    rewrite !initial_remove in E. now subst. }
  { apply sorted_NoDup. now apply NoDup_filter. }
  { exact C. }
  split.
  - apply NoDup_app_intro; [exact DA|exact DC|]. intros k I J.
    destruct (KA k I) as (x&Ix&->). destruct (KC _ J) as (y&Iy&[= Ey]).
    apply common_In in Ix as [Ix _]. apply analytic_In in Iy as (u&->&Iy). rewrite initial_remove in Ey. subst u.
    now apply (O1 x).
  - intros k I. apply in_app_iff in I as [I|I].
    + destruct (KA k I) as (x&_&->). eauto.
    + destruct (KC k I) as (x&_&->). eauto.
Qed.

Lemma link_rest_NoDup cd rs rest : forall p1 o acts,
  NoDup (map pname (p1 :: rest)) -> (forall p, In p (p1 :: rest) -> one_form p) ->
  link_rest cd rs p1 rest o = Ok acts ->
  NoDup (links acts) /\ forall n1 n2 v, In (n1, n2, v) (links acts) -> In n1 (map pname (p1 :: rest)).
Proof.
  induction rest as [|p2 rest IH]; intros p1 o acts N O; cbn [link_rest].
  - intros [= <-]. cbn. split; [constructor|easy].
  - inversion N as [|? ? N1 N2]; subst.
    destruct (first_reserve rs (pname p2)).
    + intro H. destruct (IH p2 o acts N2) as [D K]; [intros; apply O; now right|exact H|].
      split; [exact D|]. intros. right. eapply K; eauto.
    + destruct (link_pair cd p1 p2 o) as [[a1 o1]|] eqn:P; [|discriminate]. cbn [rbind fst snd].
      destruct (link_rest cd rs p2 rest o1) as [a2|] eqn:R; [|discriminate]. cbn [rbind].
      intros [= <-]. rewrite links_app.
      destruct (link_pair_NoDup cd p1 p2 o a1 o1) as [D1 K1]; [apply O; now left|apply O; right; now left|exact P|].
      destruct (IH p2 o1 a2 N2) as [D2 K2]; [intros; apply O; now right|exact R|]. split.
      * apply NoDup_app_intro; [exact D1|exact D2|]. intros k I J. destruct (K1 k I) as [v ->].
        apply K2 in J. now apply N1.
      * intros n1 n2 v I. apply in_app_iff in I as [I|I].
        -- destruct (K1 _ I) as [w [= -> -> ->]]. now left.
        -- right. eapply K2; eauto.
Qed.

Lemma link_phases_once size par rs phases acts :
  NoDup (map pname phases) -> (forall p, In p phases -> one_form p) ->
  link_phases size par rs phases = Ok acts -> NoDup (links acts).
Proof.
  unfold link_phases. destruct phases as [|p rest]; [intros _ _ [= <-]; constructor|].
  intros N O. destruct (Nat.leb _ 1); [intros [= <-]; constructor|]. intro H.
  eapply link_rest_NoDup; eauto.
Qed.

(** ** When linking fails *)

(** Every option that is read as a pair is one. *)
Definition pairs_ok (p : phase) : Prop :=
  forall v s x, In s ["_final"; "_initial"; "_ref"; "_ref0"; "_initial_ref"; "_duration_ref"] ->
    dget (v ++ s) (info p) = Some x -> exists q u, x = VPair q u.

Lemma pairs_get p v s :
  pairs_ok p -> In s ["_final"; "_initial"; "_ref"; "_ref0"; "_initial_ref"; "_duration_ref"] ->
  exists r, get_pair (info p) (v ++ s) = Ok r.
Proof.
  intros P I. unfold get_pair. destruct (dget (v ++ s) (info p)) as [x|] eqn:E; [|eauto].
  destruct (P v s x I E) as (q&u&->). eauto.
Qed.

Lemma find_scaling_ok v p1 p2 o : pairs_ok p1 -> pairs_ok p2 -> exists r, find_scaling v p1 p2 o = Ok r.
Proof.
  intros P1 P2. unfold find_scaling. destruct (_ && _ && _); [eauto|].
  match goal with |- context [String.eqb (if ?b then "time" else v) "time"] => set (w := if b then "time" else v) end.
  clearbody w.
  destruct (pairs_get p2 w "_initial_ref" P2) as [r1 ->]; [cbn; auto 10|].
  destruct (pairs_get p1 w "_duration_ref" P1) as [r2 ->]; [cbn; auto 10|].
  destruct (pairs_get p1 w "_ref" P1) as [r3 ->]; [cbn; auto 10|].
  destruct (pairs_get p1 w "_ref0" P1) as [r4 ->]; [cbn; auto 10|].
  destruct (pairs_get p2 w "_ref" P2) as [r5 ->]; [cbn; auto 10|].
  destruct (pairs_get p2 w "_ref0" P2) as [r6 ->]; [cbn; auto 10|].
  cbn [rbind]. destruct (String.eqb w "time"), (fst r1), (fst r3); cbn [rbind]; eauto.
Qed.

Lemma scaling_if_ok c v p1 p2 o : pairs_ok p1 -> pairs_ok p2 ->
  (exists r, scaling_if c v p1 p2 (Some o) = Ok r) /\
  ((exists r, scaling_if c v p1 p2 None = Ok r) \/ scaling_if c v p1 p2 None = Err UnboundLocalError).
Proof.
  intros P1 P2. unfold scaling_if. destruct c; [split; eauto|]. cbn.
  split; [now apply find_scaling_ok|now right].
Qed.

Definition fine (A : Type) (o : option oval) (r : res A) : Prop :=
  (exists a, r = Ok a) \/ (o = None /\ r = Err UnboundLocalError).

Lemma link_common_ok cd p1 p2 v : pairs_ok p1 -> pairs_ok p2 -> exists b, link_common cd p1 p2 v = Ok b.
Proof.
  intros P1 P2. unfold link_common. destruct (_ && _); [eauto|].
  destruct (pairs_get p1 v "_final" P1) as [r1 ->]; [cbn; auto|].
  destruct (pairs_get p2 v "_initial" P2) as [r2 ->]; [cbn; auto|]. cbn [rbind].
  destruct (_ && _); [eauto|].
  match goal with |- context [scaling_if ?c v p1 p2 (Some ?o)] =>
    destruct (proj1 (scaling_if_ok c v p1 p2 o P1 P2)) as [r ->] end. cbn. eauto.
Qed.

Lemma link_down_ok cd p1 p2 o v : pairs_ok p1 -> pairs_ok p2 -> fine _ o (link_down cd p1 p2 o v).
Proof.
  intros P1 P2. unfold link_down, fine. destruct (negb _); [eauto|].
  destruct o as [x|].
  - match goal with |- context [scaling_if ?c ?w p1 p2 (Some ?o)] =>
      destruct (proj1 (scaling_if_ok c w p1 p2 o P1 P2)) as [r ->] end. cbn. eauto.
  - match goal with |- context [scaling_if ?c ?w p1 p2 None] =>
      destruct (proj2 (scaling_if_ok c w p1 p2 VNone P1 P2)) as [[r ->]| ->] end; cbn; eauto.
Qed.

Lemma link_up_ok cd p1 p2 o v : pairs_ok p1 -> pairs_ok p2 -> fine _ o (link_up cd p1 p2 o v).
Proof.
  intros P1 P2. unfold link_up, fine. destruct (negb _); [eauto|]. destruct (_ || _); [eauto|].
  destruct o as [x|].
  - match goal with |- context [scaling_if ?c ?w p1 p2 (Some ?o)] =>
      destruct (proj1 (scaling_if_ok c w p1 p2 o P1 P2)) as [r ->] end. cbn. eauto.
  - match goal with |- context [scaling_if ?c ?w p1 p2 None] =>
      destruct (proj2 (scaling_if_ok c w p1 p2 VNone P1 P2)) as [[r ->]| ->] end; cbn; eauto.
Qed.

Lemma for_each_fine f l o : (forall x, fine _ o (f x)) -> fine _ o (for_each f l).
Proof.
  intro F. unfold fine in *. induction l as [|x l IH]; cbn [for_each]; [eauto|].
  destruct (F x) as [[a ->]|[-> ->]]; cbn [rbind]; [|eauto].
  destruct IH as [[b ->]|[-> ->]]; cbn [rbind]; eauto.
Qed.

Lemma opt2_after_some p1 p2 o : (exists x, o = Some x) \/ common_vars p1 p2 <> [] -> exists x, opt2_after p1 p2 o = Some x.
Proof.
  unfold opt2_after. generalize (common_vars p1 p2). intro l. revert o.
  induction l as [|v l IH]; cbn [fold_left]; intros o H.
  - destruct H as [H|H]; [exact H|contradiction].
  - apply IH. left. eauto.
Qed.

Lemma link_pair_fine cd p1 p2 o : pairs_ok p1 -> pairs_ok p2 -> fine _ (opt2_after p1 p2 o) (link_pair cd p1 p2 o).
Proof.
  intros P1 P2. unfold link_pair.
  destruct (for_each_ok_intro (link_common cd p1 p2) (common_vars p1 p2)) as [a ->].
  { intros x _. now apply link_common_ok. }
  cbn [rbind]. unfold fine.
  destruct (for_each_fine (link_down cd p1 p2 (opt2_after p1 p2 o)) (sorted (filter startswith_initial (lvars p2))) (opt2_after p1 p2 o))
    as [[b ->]|[-> ->]]; [intro; now apply link_down_ok| |cbn [rbind]; eauto].
  cbn [rbind].
  destruct (for_each_fine (link_up cd p1 p2 (opt2_after p1 p2 o)) (sorted (filter startswith_initial (lvars p1))) (opt2_after p1 p2 o))
    as [[c ->]|[-> ->]]; [intro; now apply link_up_ok| |cbn [rbind]; eauto].
  cbn [rbind]. eauto.
Qed.

Lemma link_rest_fine cd rs rest : forall p1 o,
  (forall p, In p (p1 :: rest) -> pairs_ok p) ->
  ((exists a, link_rest cd rs p1 rest o = Ok a) \/ link_rest cd rs p1 rest o = Err UnboundLocalError) /\
  ((exists x, o = Some x) -> exists a, link_rest cd rs p1 rest o = Ok a) /\
  ((forall a b, adjacent (p1 :: rest) a b -> ~ starts_reserve rs b -> exists v, In v (lvars a) /\ In v (lvars b)) ->
   exists a, link_rest cd rs p1 rest o = Ok a).
Proof.
  induction rest as [|p2 rest IH]; intros p1 o P; cbn [link_rest].
  - split; [eauto|]. split; eauto.
  - destruct (first_reserve rs (pname p2)) eqn:F.
    + destruct (IH p2 o) as (A&B&C); [intros; apply P; now right|]. split; [exact A|]. split; [exact B|].
      intro H. apply C. intros a b J. apply H. apply adjacent_cons. now right.
    + assert (F' : ~ starts_reserve rs p2) by (rewrite <- first_reserve_iff; congruence).
      assert (P1 : pairs_ok p1) by (apply P; now left).
      assert (P2 : pairs_ok p2) by (apply P; right; now left).
      assert (Q : forall o', (exists x, opt2_after p1 p2 o' = Some x) ->
                  exists a o1, link_pair cd p1 p2 o' = Ok (a, o1) /\ exists x, o1 = Some x).
      { intros o' [x E]. destruct (link_pair_fine cd p1 p2 o' P1 P2) as [[[a o1] H]|[H _]]; [|congruence].
        exists a, o1. split; [exact H|]. apply link_pair_inv in H as (?&?&?&_&->&_). eauto. }
      split; [|split].
      * destruct (link_pair_fine cd p1 p2 o P1 P2) as [[[a o1] ->]|[_ ->]]; cbn [rbind fst snd]; [|now right].
        destruct (IH p2 o1) as ([[b ->]| ->]&_&_); [intros; apply P; now right| |]; cbn [rbind]; eauto.
      * intro S. destruct (Q o) as (a&o1&->&S1); [apply opt2_after_some; now left|]. cbn [rbind fst snd].
        destruct (IH p2 o1) as (_&B&_); [intros; apply P; now right|]. destruct (B S1) as [b ->]. cbn. eauto.
      * intro H. destruct (Q o) as (a&o1&->&S1).
        { apply opt2_after_some. right. destruct (H p1 p2) as (v&I1&I2); [apply adjacent_cons; now left|exact F'|].
          intro E. assert (I : In v (common_vars p1 p2)) by (apply common_In; tauto). rewrite E in I. destruct I. }
        cbn [rbind fst snd].
        destruct (IH p2 o1) as (_&B&_); [intros; apply P; now right|]. destruct (B S1) as [b ->]. cbn. eauto.
Qed.

Lemma link_phases_fine size par rs phases :
  (forall p, In p phases -> pairs_ok p) ->
  ((exists a, link_phases size par rs phases = Ok a) \/ link_phases size par rs phases = Err UnboundLocalError) /\
  ((forall a b, adjacent phases a b -> ~ starts_reserve rs b -> exists v, In v (lvars a) /\ In v (lvars b)) ->
   exists a, link_phases size par rs phases = Ok a).
Proof.
  intro P. unfold link_phases. destruct phases as [|p rest]; [split; eauto|].
  destruct (Nat.leb _ 1); [split; eauto|].
  destruct (link_rest_fine (negb (Nat.ltb 1 size && par)) rs rest p None P) as (A&_&C). now split.
Qed.

(** ** Released initial values, for trajectories without analytic phases *)
Definition no_optimize (p : phase) (v : string) : Prop :=
  dget (v ++ "_optimize") (info p) = None \/ dget (v ++ "_optimize") (info p) = Some VNone.

Definition release_due (cd : bool) (p1 p2 : phase) (v : string) : Prop :=
  link_due cd p1 p2 v false /\ no_optimize p2 v /\ In v (states p2) /\
  v <> "time" /\ (states p1 <> [] -> v <> integ p1).

Lemma scaling_if_release c v p1 p2 o kw s a :
  scaling_if c v p1 p2 (Some o) = Ok (kw, s) ->
  (In a s <-> c = false /\ o = VNone /\ stored_as p1 v v /\ v <> "time" /\ In v (states p2) /\
              a = AInputInitialFalse (pname p2) v).
Proof.
  unfold scaling_if. destruct c; intro H.
  - injection H as <- <-. split; [easy|]. now intros [? _].
  - cbn [read_opt2 rbind] in H. apply find_scaling_spec in H as [_ H]. rewrite H. unfold released. tauto.
Qed.

Lemma stored_self p v : v <> "time" -> (stored_as p v v <-> (states p <> [] -> v <> integ p)).
Proof. intro N. unfold stored_as. split; [intros [(_&_&_&E)|[E _]]; tauto|]. intro H. right. tauto. Qed.

Lemma link_common_release cd p1 p2 v b n w :
  In v (lvars p1) -> In v (lvars p2) -> (forall u, ~ In ("initial_" ++ u) (lvars p1)) ->
  link_common cd p1 p2 v = Ok b ->
  (In (AInputInitialFalse n w) b <-> n = pname p2 /\ w = v /\ release_due cd p1 p2 v).
Proof.
  intros I1 I2 NA H. pose proof (link_common_spec cd p1 p2 v b (pname p1) (pname p2) v false H) as L.
  unfold link_common in H.
  assert (NO : get_opt (info p2) (v ++ "_optimize") = VNone <-> no_optimize p2 v).
  { unfold get_opt, no_optimize. destruct (dget _ _) as [[]|]; intuition congruence. }
  assert (DUE : link_due cd p1 p2 v false <-> exists kw, In (ALink (pname p1) (pname p2) v false kw) b).
  { rewrite L. split.
    - intro D. inversion D as [? ? A1 A2 A3 A4 A5|? ? A1]; subst; [tauto|]. now apply NA in A1.
    - intros (_&_&_&A&B&C). now apply due_common. }
  destruct (is_False _ && is_False _).
  { injection H as <-. cbn. split; [easy|]. intros (_&_&[D _]). apply DUE in D as [? []]. }
  destruct (get_pair (info p1) _) as [pin1|]; [|discriminate]. cbn [rbind] in H.
  destruct (get_pair (info p2) (v ++ "_initial")) as [pin2|]; [|discriminate]. cbn [rbind] in H.
  destruct (truthy_num _ && truthy_num _).
  { injection H as <-. cbn. split; [easy|]. intros (_&_&[D _]). apply DUE in D as [? []]. }
  match type of H with context [scaling_if ?x v p1 p2 _] => set (c := x) in H end. clearbody c.
  destruct (scaling_if c v p1 p2 _) as [[k s]|] eqn:K; [|discriminate]. cbn [rbind fst snd] in H.
  injection H as <-. rewrite in_app_iff.
  rewrite (scaling_if_release _ _ _ _ _ _ _ (AInputInitialFalse n w) K). unfold release_due. rewrite DUE, NO.
  assert (CC : (exists kw, In (ALink (pname p1) (pname p2) v false kw) (s ++ [ALink (pname p1) (pname p2) v c k])) <-> c = false).
  { split.
    - intros [kw J]. apply in_app_iff in J as [J|[J|[]]]; [now apply (proj1 (scaling_no_link _ _ _ _ _ _ _ K)) in J|]. congruence.
    - intros ->. exists k. apply in_app_iff. right. now left. }
  rewrite CC. split.
  - intros [(A&B&C&D&E&[= -> ->])|[J|[]]]; [|discriminate]. rewrite stored_self in C by exact D. tauto.
  - intros (->&->&A&B&C&D&E). left. rewrite stored_self by exact D. tauto.
Qed.

Definition no_analytic (p : phase) : Prop := forall u, ~ In ("initial_" ++ u) (lvars p).

Lemma no_analytic_filter p : no_analytic p -> filter startswith_initial (lvars p) = [].
Proof.
  intro N. destruct (filter startswith_initial (lvars p)) as [|x l] eqn:E; [reflexivity|]. exfalso.
  assert (I : In x (filter startswith_initial (lvars p))) by (rewrite E; now left).
  apply filter_In in I as [I J]. apply initial_split in J. rewrite J in I. now apply N in I.
Qed.

Lemma link_pair_release cd p1 p2 o acts o' n v :
  no_analytic p1 -> no_analytic p2 -> link_pair cd p1 p2 o = Ok (acts, o') ->
  (In (AInputInitialFalse n v) acts <-> n = pname p2 /\ release_due cd p1 p2 v).
Proof.
  intros N1 N2 H. apply link_pair_inv in H as (la&lb&lc&->&_&A&B&C).
  rewrite (no_analytic_filter _ N1) in C. rewrite (no_analytic_filter _ N2) in B.
  cbn in B, C. injection B as <-. injection C as <-. rewrite !app_nil_r.
  rewrite (for_each_In _ _ _ _ A). split.
  - intros (x&b&Ix&E&I). apply common_In in Ix as [I1 I2].
    apply (link_common_release cd p1 p2 x b n v I1 I2 N1 E) in I as (->&->&R). tauto.
  - intros (->&R). pose proof R as (D&_).
    assert (X : In v (lvars p1) /\ In v (lvars p2)).
    { inversion D as [? ? A1 A2|? ? A1]; subst; [tauto|]. now apply N1 in A1. }
    assert (Ix : In v (common_vars p1 p2)) by now apply common_In.
    destruct (for_each_ok _ _ _ _ A Ix) as [b E]. exists v, b. split; [exact Ix|]. split; [exact E|].
    apply (link_common_release cd p1 p2 v b (pname p2) v (proj1 X) (proj2 X) N1 E). auto.
Qed.

Lemma link_rest_release cd rs rest : forall p1 o acts n v,
  (forall p, In p (p1 :: rest) -> no_analytic p) -> link_rest cd rs p1 rest o = Ok acts ->
  (In (AInputInitialFalse n v) acts <->
   exists a b, adjacent (p1 :: rest) a b /\ ~ starts_reserve rs b /\ n = pname b /\ release_due cd a b v).
Proof.
  induction rest as [|p2 rest IH]; intros p1 o acts n v NA; cbn [link_rest].
  - intros [= <-]. split; [easy|]. intros (a&b&A&_). now apply adjacent_single in A.
  - assert (NA' : forall p, In p (p2 :: rest) -> no_analytic p) by (intros; apply NA; now right).
    destruct (first_reserve rs (pname p2)) eqn:F.
    + apply first_reserve_iff in F. intro H. rewrite (IH p2 o acts n v NA' H). split.
      * intros (a&b&A&K). exists a, b. split; [|exact K]. apply adjacent_cons. now right.
      * intros (a&b&A&N&K). exists a, b. split; [|now split].
        apply adjacent_cons in A as [[-> ->]|A]; [contradiction|exact A].
    + assert (F' : ~ starts_reserve rs p2) by (rewrite <- first_reserve_iff; congruence).
      destruct (link_pair cd p1 p2 o) as [[a1 o1]|] eqn:P; [|discriminate]. cbn [rbind fst snd].
      destruct (link_rest cd rs p2 rest o1) as [a2|] eqn:R; [|discriminate]. cbn [rbind].
      intros [= <-]. rewrite in_app_iff, (IH p2 o1 a2 n v NA' R).
      rewrite (link_pair_release cd p1 p2 o a1 o1 n v) by (exact P || (apply NA; cbn; auto)).
      split.
      * intros [[-> D]|(a&b&A&K)].
        -- exists p1, p2. split; [apply adjacent_cons; now left|tauto].
        -- exists a, b. split; [apply adjacent_cons; now right|exact K].
      * intros (a&b&A&N&K). apply adjacent_cons in A as [[-> ->]|A]; [left; exact K|].
        right. exists a, b. tauto.
Qed.

Lemma link_phases_release size par rs phases acts cd n v :
  direct size par cd -> (forall p, In p phases -> no_analytic p) ->
  link_phases size par rs phases = Ok acts ->
  (In (AInputInitialFalse n v) acts <->
   exists a b, adjacent phases a b /\ ~ starts_reserve rs b /\ n = pname b /\ release_due cd a b v).
Proof.
  intros D NA H. unfold link_phases in H.
  assert (E : negb (Nat.ltb 1 size && par) = cd).
  { unfold direct in D. destruct (Nat.ltb_spec 1 size), par, cd; cbn; try reflexivity; exfalso; intuition (try discriminate; try lia). }
  rewrite E in H. destruct phases as [|p rest].
  - injection H as <-. split; [easy|]. intros (a&b&(l&r&A)&_). now destruct l.
  - destruct rest as [|p2 rest].
    + cbn in H. injection H as <-. split; [easy|]. intros (a&b&A&_). now apply adjacent_single in A.
    + cbn [List.length Nat.leb] in H. now apply (link_rest_release cd rs (p2 :: rest) p None acts n v).
Qed.
