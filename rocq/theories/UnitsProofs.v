From Coq Require Import QArith Qcanon.
From Verif Require Import Base NVModel UnitsModel.
Open Scope nat_scope.

(** ** Specification: the affine meaning of a unit *)
(** A number in unit [a] denotes the base quantity [(x + off) * fac]. *)
Definition to_base (a : unit_def) (x : Qc) : Qc := ((x + uoff a) * ufac a)%Qc.

(** A unit library is sane when factors are non-zero. *)
Definition sane (find : string -> option unit_def) : Prop :=
  forall s a, find s = Some a -> ufac a <> 0%Qc.

(** Two unit names are convertible. *)
Definition convertible (find : string -> option unit_def) (u1 u2 : string) : Prop :=
  exists a b, find u1 = Some a /\ find u2 = Some b /\ udim a = udim b.

(** Entry [j] is entry [i] re-expressed: same shape, and each number denotes the same base quantity. *)
Definition same_quantity (a b : unit_def) (i j : item) : Prop :=
  match i, j with
  | INone, INone => True
  | INum x, INum y => to_base a x = to_base b y
  | IRow l, IRow m => Forall2 (fun x y => to_base a x = to_base b y) l m
  | _, _ => False
  end.
Definition uval_same (a b : unit_def) (v w : uval) : Prop :=
  match v, w with
  | UScalar i, UScalar j => same_quantity a b i j
  | UIter k l, UIter k' m => k = k' /\ Forall2 (same_quantity a b) l m
  | _, _ => False
  end.

Definition numeric_item (i : item) : bool := match i with IBad => false | _ => true end.
Definition numeric (v : uval) : bool :=
  match v with UScalar i => numeric_item i | UIter _ l => forallb numeric_item l end.
Definition int_array (v : uval) : bool := match v with UIter KArrInt _ => true | _ => false end.
Definition has_leaf (v : uval) : bool :=
  match v with
  | UScalar INone => false
  | UScalar _ => true
  | UIter _ l => existsb (fun i => match i with INone => false | _ => true end) l
  end.

Section P.
  Variable find : string -> option unit_def.
  Hypothesis Hsane : sane find.

  Lemma dim_eqb_true a b : dim_eqb a b = true <-> a = b.
  Proof. unfold dim_eqb. destruct (list_eq_dec Z.eq_dec a b); split; congruence. Qed.

  Lemma conv_num_base a b x : ufac a <> 0%Qc -> ufac b <> 0%Qc -> to_base b (conv_num a b x) = to_base a x.
  Proof. intros Ha Hb. unfold to_base, conv_num. field. auto. Qed.

  Lemma to_base_inj a x y : ufac a <> 0%Qc -> to_base a x = to_base a y -> x = y.
  Proof.
    intros Ha H. unfold to_base in H.
    assert (E : ((x + uoff a) = (y + uoff a))%Qc).
    { replace (x + uoff a)%Qc with ((x + uoff a) * ufac a / ufac a)%Qc by (field; auto).
      rewrite H. field. auto. }
    replace x with (x + uoff a - uoff a)%Qc by ring. rewrite E. ring.
  Qed.

  Lemma conv_row_same a b l : ufac a <> 0%Qc -> ufac b <> 0%Qc ->
    Forall2 (fun x y => to_base a x = to_base b y) l (map (conv_num a b) l).
  Proof.
    intros Ha Hb. induction l; simpl; constructor; auto. now rewrite conv_num_base.
  Qed.

  Lemma conv_items_same k l u1 u2 a b :
    k <> KArrInt -> u1 <> "" -> u2 <> "" ->
    find u1 = Some a -> find u2 = Some b -> udim a = udim b ->
    forallb numeric_item l = true ->
    exists m, conv_items find k l u1 u2 = Ok m /\ Forall2 (same_quantity a b) l m.
  Proof.
    intros Hk N1 N2 Fa Fb D. apply String.eqb_neq in N1, N2.
    induction l as [|i l IH]; simpl; intro Hn; [exists []; split; [reflexivity|constructor]|].
    apply andb_true_iff in Hn. destruct Hn as [Hi Hl]. destruct (IH Hl) as [m [Em Fm]].
    assert (C : forall i, match i with INum _ | IRow _ => True | _ => False end ->
        exists j, convert_units find i u1 u2 = Ok j /\ same_quantity a b i j).
    { intros i0 H0. unfold convert_units. rewrite N1, N2, Fa, Fb. simpl.
      rewrite (proj2 (dim_eqb_true _ _) D). destruct i0; try tauto; eexists; split; try reflexivity; simpl.
      - symmetry. apply conv_num_base; eauto.
      - apply conv_row_same; eauto. }
    destruct i as [|q|r|]; try discriminate.
    - exists (INone :: m). rewrite Em; simpl. split; [reflexivity|]. constructor; simpl; auto.
    - destruct (C (INum q) I) as [j [Ej Sj]]. rewrite Ej; simpl. rewrite Em; simpl.
      exists (store k j :: m). split; [reflexivity|]. constructor; auto.
      replace (store k j) with j; [auto|]. destruct k, j; congruence || auto.
    - destruct (C (IRow r) I) as [j [Ej Sj]]. rewrite Ej; simpl. rewrite Em; simpl.
      exists (store k j :: m). split; [reflexivity|]. constructor; auto.
      replace (store k j) with j; [auto|]. destruct k, j; congruence || auto.
  Qed.

  (** Main fact: conversion succeeds and denotes the same quantities. *)
  Lemma wrapped_same v u1 u2 a b :
    u1 <> "" -> u2 <> "" ->
    find u1 = Some a -> find u2 = Some b -> udim a = udim b ->
    numeric v = true -> int_array v = false ->
    exists w, wrapped find v u1 u2 = Ok w /\ uval_same a b v w.
  Proof.
    intros N1 N2 Fa Fb D Hn Hk. destruct v as [i|k l].
    - assert (H : exists m, conv_items find KList [i] u1 u2 = Ok m /\ Forall2 (same_quantity a b) [i] m).
      { apply conv_items_same; auto; [congruence|]. simpl in *. now rewrite Hn. }
      destruct H as [m [Em Fm]]. inversion Fm as [|? j ? ? Hj Hnil]; subst. inversion Hnil; subst.
      exists (UScalar j). split; [|exact Hj]. simpl in Em. simpl.
      destruct i; simpl in *; try discriminate.
      + injection Em as <-. reflexivity.
      + destruct (convert_units find (INum q) u1 u2); simpl in *; [injection Em as <-; reflexivity|discriminate].
      + destruct (convert_units find (IRow l) u1 u2); simpl in *; [injection Em as <-; reflexivity|discriminate].
    - destruct (conv_items_same k l u1 u2 a b) as [m [Em Fm]]; auto.
      + destruct k; simpl in Hk; congruence.
      + exists (UIter k m). simpl. rewrite Em. simpl. auto.
  Qed.

  (** uval_same determines the result. *)
  Lemma same_quantity_det a b i j1 j2 : ufac b <> 0%Qc -> same_quantity a b i j1 -> same_quantity a b i j2 -> j1 = j2.
  Proof.
    intro Hb. destruct i, j1, j2; simpl; try tauto.
    - intros H1 H2. f_equal. apply (to_base_inj b); congruence.
    - intros H1 H2. f_equal. revert l1 H2. induction H1; intros l1 H2; inversion H2; subst; auto.
      f_equal; auto. apply (to_base_inj b); congruence.
  Qed.
  Lemma uval_same_det a b v w1 w2 : ufac b <> 0%Qc -> uval_same a b v w1 -> uval_same a b v w2 -> w1 = w2.
  Proof.
    intro Hb. destruct v, w1, w2; simpl; try tauto.
    - intros. f_equal. eapply same_quantity_det; eauto.
    - intros [<- H1] [<- H2]. f_equal. revert l1 H2. induction H1; intros l1 H2; inversion H2; subst; auto.
      f_equal; auto. eapply same_quantity_det; eauto.
  Qed.
  Lemma same_quantity_trans a b c i j k : same_quantity a b i j -> same_quantity b c j k -> same_quantity a c i k.
  Proof.
    destruct i, j, k; simpl; try tauto; try congruence.
    intros H1. revert l1. induction H1; intros l1 H2; inversion H2; subst; constructor; auto. congruence.
  Qed.
  Lemma uval_same_trans a b c v w x : uval_same a b v w -> uval_same b c w x -> uval_same a c v x.
  Proof.
    destruct v, w, x; simpl; try tauto.
    - apply same_quantity_trans.
    - intros [<- H1] [<- H2]. split; auto. revert l1 H2. induction H1; intros l1 H2; inversion H2; subst; constructor; auto.
      eapply same_quantity_trans; eauto.
  Qed.
  Lemma same_quantity_refl a i : numeric_item i = true -> same_quantity a a i i.
  Proof. destruct i; simpl; auto; try discriminate. intros _. induction l; constructor; auto. Qed.
  Lemma uval_same_refl a v : numeric v = true -> uval_same a a v v.
  Proof.
    destruct v; simpl. { apply same_quantity_refl. }
    intro H. split; auto. induction l; constructor; simpl in H; apply andb_true_iff in H; destruct H; auto.
    now apply same_quantity_refl.
  Qed.
  Lemma same_quantity_numeric a b i j : same_quantity a b i j -> numeric_item j = true.
  Proof. destruct i, j; simpl; tauto. Qed.
  Lemma uval_same_shape a b v w : uval_same a b v w -> numeric w = true /\ int_array w = int_array v.
  Proof.
    destruct v, w; simpl; try tauto.
    - intro H. split; auto. eapply same_quantity_numeric; eauto.
    - intros [<- H]. split; auto. induction H; simpl; auto. rewrite (same_quantity_numeric _ _ _ _ H). auto.
  Qed.

  Lemma wrapped_path v u1 u2 u3 :
    u1 <> "" -> u2 <> "" -> u3 <> "" ->
    convertible find u1 u2 -> convertible find u2 u3 ->
    numeric v = true -> int_array v = false ->
    exists w x, wrapped find v u1 u2 = Ok w /\ wrapped find w u2 u3 = Ok x /\ wrapped find v u1 u3 = Ok x.
  Proof.
    intros N1 N2 N3 [a [b [Fa [Fb D1]]]] [b' [c [Fb' [Fc D2]]]] Hn Hk.
    rewrite Fb in Fb'. injection Fb' as <-.
    destruct (wrapped_same v u1 u2 a b) as [w [Ew Sw]]; auto.
    destruct (uval_same_shape _ _ _ _ Sw) as [Hn' Hk'].
    destruct (wrapped_same w u2 u3 b c) as [x [Ex Sx]]; auto; [congruence|].
    destruct (wrapped_same v u1 u3 a c) as [y [Ey Sy]]; auto; [congruence|].
    exists w, x. repeat split; auto. rewrite Ey. f_equal.
    apply (uval_same_det a c v y x); [exact (Hsane _ _ Fc)|exact Sy|]. exact (uval_same_trans _ _ _ _ _ _ Sw Sx).
  Qed.

  Lemma wrapped_roundtrip v u1 u2 :
    u1 <> "" -> u2 <> "" -> convertible find u1 u2 ->
    numeric v = true -> int_array v = false ->
    exists w, wrapped find v u1 u2 = Ok w /\ wrapped find w u2 u1 = Ok v.
  Proof.
    intros N1 N2 [a [b [Fa [Fb D]]]] Hn Hk.
    destruct (wrapped_same v u1 u2 a b) as [w [Ew Sw]]; auto.
    destruct (uval_same_shape _ _ _ _ Sw) as [Hn' Hk'].
    destruct (wrapped_same w u2 u1 b a) as [x [Ex Sx]]; auto; [congruence|].
    exists w. split; auto. rewrite Ex. f_equal. symmetry.
    apply (uval_same_det a a v v x); [exact (Hsane _ _ Fa)|exact (uval_same_refl a v Hn)|].
    exact (uval_same_trans _ _ _ _ _ _ Sw Sx).
  Qed.

  (** *** Shape preservation, for every value and every outcome *)
  Definition same_shape_item (i j : item) : Prop :=
    match i, j with
    | INone, INone => True | INum _, INum _ => True | IBad, IBad => True
    | IRow l, IRow m => length l = length m | _, _ => False end.
  Definition same_shape (v w : uval) : Prop :=
    match v, w with
    | UScalar i, UScalar j => same_shape_item i j
    | UIter k l, UIter k' m => k = k' /\ Forall2 same_shape_item l m
    | _, _ => False
    end.

  Lemma convert_shape i j u1 u2 : convert_units find i u1 u2 = Ok j -> same_shape_item i j.
  Proof.
    unfold convert_units. destruct (String.eqb u1 "" || String.eqb u2 "")%bool.
    - intros [= <-]. destruct i; simpl; auto.
    - destruct (find u1) as [a|], (find u2) as [b|]; try discriminate.
      destruct (dim_eqb _ _); try discriminate.
      destruct i; try discriminate; intros [= <-]; simpl; auto. now rewrite map_length.
  Qed.
  Lemma store_shape k i j : same_shape_item i j -> same_shape_item i (store k j).
  Proof. destruct k, i, j; simpl; auto. now rewrite map_length. Qed.

  Lemma wrapped_shape v w u1 u2 : wrapped find v u1 u2 = Ok w -> same_shape v w.
  Proof.
    destruct v as [i|k l]; simpl.
    - destruct i; [intros [= <-]; exact I| | |];
        (destruct (convert_units find _ u1 u2) eqn:E; simpl; [|discriminate]; intros [= <-]; simpl;
         now apply convert_shape in E).
    - destruct (conv_items find k l u1 u2) as [m|] eqn:E; simpl; [|discriminate]. intros [= <-]. split; auto.
      revert m E. induction l as [|i l IH]; simpl; intros m E; [injection E as <-; constructor|].
      destruct (match i with INone => Ok INone | _ => _ end) as [j|] eqn:Ej; [|discriminate].
      destruct (conv_items find k l u1 u2) as [js|] eqn:El; simpl in E; [|discriminate].
      injection E as <-. constructor; [|now apply IH].
      destruct i; [injection Ej as <-; exact I| | |];
        (destruct (convert_units find _ u1 u2) eqn:Ec; simpl in Ej; [|discriminate]; injection Ej as <-;
         apply store_shape; now apply convert_shape in Ec).
  Qed.

  (** *** Which requests raise *)
  Definition units_bad (u1 u2 : string) : bool :=
    match find u1, find u2 with
    | Some a, Some b => negb (dim_eqb (udim a) (udim b))
    | _, _ => true
    end.

  Lemma convert_err i u1 u2 : u1 <> "" -> u2 <> "" -> i <> INone ->
    (is_ok (convert_units find i u1 u2) = false <-> units_bad u1 u2 = true \/ i = IBad).
  Proof.
    intros N1 N2 Hi. apply String.eqb_neq in N1, N2. unfold convert_units, units_bad. rewrite N1, N2; simpl.
    destruct (find u1) as [a|], (find u2) as [b|]; simpl; try tauto.
    destruct (dim_eqb _ _); simpl; [|tauto].
    destruct i; simpl; split; try tauto; try congruence; intros [H|H]; congruence.
  Qed.

  Lemma conv_items_err k l u1 u2 : u1 <> "" -> u2 <> "" ->
    (is_ok (conv_items find k l u1 u2) = false <->
     existsb (fun i => match i with INone => false | _ => true end) l = true /\
     (units_bad u1 u2 = true \/ forallb numeric_item l = false)).
  Proof.
    intros N1 N2. induction l as [|i l IH]; simpl; [split; [discriminate|intros [H _]; discriminate]|].
    assert (Hstep : forall i0, i0 <> INone ->
      is_ok (rbind (convert_units find i0 u1 u2) (fun j => Ok (store k j))) = is_ok (convert_units find i0 u1 u2)).
    { intros i0 _. destruct (convert_units find i0 u1 u2); reflexivity. }
    destruct i as [|q|r|].
    - simpl. destruct (conv_items find k l u1 u2); simpl in *; tauto.
    - pose proof (convert_err (INum q) u1 u2 N1 N2 ltac:(discriminate)) as CE.
      specialize (Hstep (INum q) ltac:(discriminate)).
      destruct (rbind (convert_units find (INum q) u1 u2) _) as [j|]; simpl in Hstep; rewrite <- Hstep in CE; simpl.
      + assert (U : units_bad u1 u2 = false) by (destruct (units_bad u1 u2); auto; destruct CE as [_ CE]; discriminate CE; auto).
        destruct (conv_items find k l u1 u2); simpl in *; rewrite U in *.
        * split; [discriminate|]. intros [_ [H|H]]; [discriminate|]. apply IH. split; auto.
          clear -H. induction l as [|i l IHl]; simpl in *; [discriminate|]. destruct i; simpl in *; auto.
        * split; auto. intros _. split; auto. right. now destruct IH as [IH _]; destruct IH as [_ [H|H]].
      + split; auto. intros _. split; auto. left. destruct CE as [CE _]. destruct CE as [H|H]; auto; discriminate.
    - pose proof (convert_err (IRow r) u1 u2 N1 N2 ltac:(discriminate)) as CE.
      specialize (Hstep (IRow r) ltac:(discriminate)).
      destruct (rbind (convert_units find (IRow r) u1 u2) _) as [j|]; simpl in Hstep; rewrite <- Hstep in CE; simpl.
      + assert (U : units_bad u1 u2 = false) by (destruct (units_bad u1 u2); auto; destruct CE as [_ CE]; discriminate CE; auto).
        destruct (conv_items find k l u1 u2); simpl in *; rewrite U in *.
        * split; [discriminate|]. intros [_ [H|H]]; [discriminate|]. apply IH. split; auto.
          clear -H. induction l as [|i l IHl]; simpl in *; [discriminate|]. destruct i; simpl in *; auto.
        * split; auto. intros _. split; auto. right. now destruct IH as [IH _]; destruct IH as [_ [H|H]].
      + split; auto. intros _. split; auto. left. destruct CE as [CE _]. destruct CE as [H|H]; auto; discriminate.
    - simpl. split; auto. intros _.
      pose proof (convert_err IBad u1 u2 N1 N2 ltac:(discriminate)) as CE.
      destruct (convert_units find IBad u1 u2); simpl in *; auto.
      destruct CE as [_ CE]. discriminate CE. auto.
  Qed.

  Lemma wrapped_err v u1 u2 : u1 <> "" -> u2 <> "" ->
    (is_ok (wrapped find v u1 u2) = false <-> has_leaf v = true /\ (units_bad u1 u2 = true \/ numeric v = false)).
  Proof.
    intros N1 N2. destruct v as [i|k l]; simpl.
    - destruct i as [|q|r|]; simpl.
      + split; [discriminate|intros [H _]; discriminate].
      + pose proof (convert_err (INum q) u1 u2 N1 N2 ltac:(discriminate)) as CE.
        destruct (convert_units find (INum q) u1 u2); simpl in *; split; intuition; try discriminate.
      + pose proof (convert_err (IRow r) u1 u2 N1 N2 ltac:(discriminate)) as CE.
        destruct (convert_units find (IRow r) u1 u2); simpl in *; split; intuition; try discriminate.
      + pose proof (convert_err IBad u1 u2 N1 N2 ltac:(discriminate)) as CE.
        destruct (convert_units find IBad u1 u2); simpl in *; split; intuition; try discriminate.
    - rewrite <- (conv_items_err k l u1 u2 N1 N2). destruct (conv_items find k l u1 u2); simpl; tauto.
  Qed.

  Lemma units_bad_spec u1 u2 : units_bad u1 u2 = false <-> convertible find u1 u2.
  Proof.
    unfold units_bad, convertible. destruct (find u1) as [a|], (find u2) as [b|].
    - rewrite negb_false_iff, dim_eqb_true. split; [eauto|]. intros [a' [b' [H1 [H2 H3]]]]. congruence.
    - split; [discriminate|]. intros [a' [b' [H1 [H2 H3]]]]. congruence.
    - split; [discriminate|]. intros [a' [b' [H1 [H2 H3]]]]. congruence.
    - split; [discriminate|]. intros [a' [b' [H1 [H2 H3]]]]. congruence.
  Qed.
End P.

(** ** Lifting to the container API *)
Section Api.
  Variable find : string -> option unit_def.
  Hypothesis Hsane : sane find.

  Definition stored (c : nv uval) k v u : nv uval := fst (set_val c k v (UStr u)).

  Lemma get_stored c k v u1 u2 :
    get_val find (stored c k v u1) k (UStr u2) = if String.eqb u1 u2 then Ok v else wrapped find v u1 u2.
  Proof. unfold stored, get_val; simpl. now rewrite dget_dset_same. Qed.

  Lemma api_same c k v u : get_val find (stored c k v u) k (UStr u) = Ok v.
  Proof. rewrite get_stored. now rewrite String.eqb_refl. Qed.

  Lemma api_quantity c k v u1 u2 a b :
    u1 <> "" -> u2 <> "" -> find u1 = Some a -> find u2 = Some b -> udim a = udim b ->
    numeric v = true -> int_array v = false ->
    exists w, get_val find (stored c k v u1) k (UStr u2) = Ok w /\ uval_same a b v w.
  Proof.
    intros N1 N2 Fa Fb D Hn Hk. rewrite get_stored. destruct (String.eqb u1 u2) eqn:E.
    - apply String.eqb_eq in E; subst. rewrite Fa in Fb. injection Fb as <-.
      exists v. split; auto. now apply uval_same_refl.
    - now apply wrapped_same.
  Qed.

  Lemma api_roundtrip c k v u1 u2 :
    u1 <> "" -> u2 <> "" -> convertible find u1 u2 -> numeric v = true -> int_array v = false ->
    exists w, get_val find (stored c k v u1) k (UStr u2) = Ok w /\
              get_val find (stored (stored c k v u1) k w u2) k (UStr u1) = Ok v.
  Proof.
    intros N1 N2 Cv Hn Hk. rewrite get_stored. destruct (String.eqb u1 u2) eqn:E.
    - apply String.eqb_eq in E; subst. exists v. split; auto. apply api_same.
    - destruct (wrapped_roundtrip find Hsane v u1 u2) as [w [E1 E2]]; auto.
      exists w. split; auto. rewrite get_stored. rewrite String.eqb_sym, E. exact E2.
  Qed.

  Lemma api_path c k v u1 u2 u3 :
    u1 <> "" -> u2 <> "" -> u3 <> "" -> convertible find u1 u2 -> convertible find u2 u3 ->
    numeric v = true -> int_array v = false ->
    exists w x, get_val find (stored c k v u1) k (UStr u2) = Ok w /\
                get_val find (stored c k w u2) k (UStr u3) = Ok x /\
                get_val find (stored c k v u1) k (UStr u3) = Ok x.
  Proof.
    intros N1 N2 N3 C1 C2 Hn Hk.
    destruct C1 as [a [b [Fa [Fb D1]]]], C2 as [b' [d [Fb' [Fd D2]]]].
    rewrite Fb in Fb'. injection Fb' as <-.
    destruct (api_quantity c k v u1 u2 a b) as [w [Ew Sw]]; auto.
    destruct (uval_same_shape _ _ _ _ Sw) as [Hn' Hk'].
    destruct (api_quantity c k w u2 u3 b d) as [x [Ex Sx]]; auto; [congruence|].
    destruct (api_quantity c k v u1 u3 a d) as [y [Ey Sy]]; auto; [congruence|].
    exists w, x. repeat split; auto. rewrite Ey. f_equal.
    apply (uval_same_det a d v y x); [exact (Hsane _ _ Fd)|exact Sy|]. exact (uval_same_trans _ _ _ _ _ _ Sw Sx).
  Qed.

  Lemma api_shape c k v u1 u2 w : get_val find (stored c k v u1) k (UStr u2) = Ok w -> same_shape v w.
  Proof.
    rewrite get_stored. destruct (String.eqb u1 u2).
    - intros [= <-]. destruct v as [i|kk l]; simpl; [destruct i; simpl; auto|].
      split; auto. induction l as [|i l IH]; constructor; auto. destruct i; simpl; auto.
    - apply wrapped_shape.
  Qed.

  Lemma api_err c k v u1 u2 :
    u1 <> "" -> u2 <> "" -> u1 <> u2 ->
    (is_ok (get_val find (stored c k v u1) k (UStr u2)) = false <->
     has_leaf v = true /\ (~ convertible find u1 u2 \/ numeric v = false)).
  Proof.
    intros N1 N2 N. rewrite get_stored. apply String.eqb_neq in N. rewrite N.
    rewrite wrapped_err by assumption. rewrite <- units_bad_spec.
    destruct (units_bad find u1 u2); intuition congruence.
  Qed.
End Api.

(** A concrete unit library: metres, feet (0.3048), kelvin and degrees Celsius (offset). *)
Definition lib (s : string) : option unit_def :=
  if String.eqb s "m" then Some {| udim := [1%Z; 0%Z]; ufac := 1%Qc; uoff := 0%Qc |}
  else if String.eqb s "ft" then Some {| udim := [1%Z; 0%Z]; ufac := Q2Qc (381 # 1250); uoff := 0%Qc |}
  else if String.eqb s "degK" then Some {| udim := [0%Z; 1%Z]; ufac := 1%Qc; uoff := 0%Qc |}
  else if String.eqb s "degC" then Some {| udim := [0%Z; 1%Z]; ufac := 1%Qc; uoff := Q2Qc (27315 # 100) |}
  else None.

Lemma lib_sane : sane lib.
Proof.
  intros s a. unfold lib.
  destruct (String.eqb s "m"); [intros [= <-]; discriminate|].
  destruct (String.eqb s "ft"); [intros [= <-]; discriminate|].
  destruct (String.eqb s "degK"); [intros [= <-]; discriminate|].
  destruct (String.eqb s "degC"); [intros [= <-]; discriminate|]. discriminate.
Qed.

Lemma int_array_loses :
  exists v w, numeric v = true /\
    get_val lib (stored [] "x" v "m") "x" (UStr "ft") = Ok w /\
    get_val lib (stored [] "x" w "ft") "x" (UStr "m") <> Ok v.
Proof.
  exists (UIter KArrInt [INum (ztoqc 10)]), (UIter KArrInt [INum (ztoqc 32)]).
  split; [reflexivity|]. split; vm_compute; [reflexivity|discriminate].
Qed.

Lemma empty_wrong_units :
  exists v w, ~ convertible lib "m" "degK" /\ get_val lib (stored [] "x" v "m") "x" (UStr "degK") = Ok w.
Proof.
  exists (UIter KList []), (UIter KList []). split; [|reflexivity].
  intros [a [b [H1 [H2 H3]]]]. injection H1 as <-. injection H2 as <-. discriminate.
Qed.
