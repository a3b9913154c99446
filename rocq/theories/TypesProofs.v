From Coq Require Import QArith Qcanon.
From Verif Require Import Base NVModel UnitsModel UnitsProofs TypesModel TypesSpec.
Open Scope nat_scope.

Section Ind.
  Variable P : pv -> Prop.
  Hypothesis HN : P PNone.
  Hypothesis HB : forall b, P (PBool b).
  Hypothesis HI : forall z, P (PInt z).
  Hypothesis HF : forall q, P (PFloat q).
  Hypothesis HS : forall s, P (PStr s).
  Hypothesis HP : forall s, P (PPath s).
  Hypothesis HE : forall c n, P (PEnum c n).
  Hypothesis HL : forall k l, Forall P l -> P (PIter k l).
  Fixpoint pv_ind' (v : pv) : P v :=
    match v with
    | PNone => HN | PBool b => HB b | PInt z => HI z | PFloat q => HF q
    | PStr s => HS s | PPath s => HP s | PEnum c n => HE c n
    | PIter k l => HL k l ((fix go (l : list pv) : Forall P l :=
        match l with [] => Forall_nil P | x :: l' => Forall_cons x (pv_ind' x) (go l') end) l)
    end.
End Ind.

Section P.
  Variable W : py.

  Lemma isinstance_spec v t : isinstance W v t = true <-> InstOf W v t.
  Proof.
    split.
    - destruct v, t; try destruct k; simpl; try discriminate; intro H; try constructor; auto.
      apply String.eqb_eq in H. subst. constructor.
    - intro H; destruct H; simpl; auto. apply String.eqb_refl.
  Qed.

  Lemma isinstance_any_spec v ts : isinstance_any W v ts = true <-> exists t, In t ts /\ InstOf W v t.
  Proof.
    unfold isinstance_any. rewrite existsb_exists. split; intros [t [H1 H2]]; exists t; split; auto;
      now apply isinstance_spec.
  Qed.

  Lemma flatten_leaf v x : In x (flatten v) <-> leaf x v.
  Proof.
    revert x; induction v as [|b|z|q|s|s|c n|k l IH] using pv_ind'; intro x; simpl;
      try (split; [intros [<-|[]]; now constructor|intro H; inversion H; auto]; fail).
    rewrite in_flat_map. rewrite Forall_forall in IH. split.
    - intros [y [Hy Hx]]. apply leaf_in with y; auto. now apply IH.
    - intro H; inversion H; subst; [discriminate|]. exists y. split; auto. now apply IH.
  Qed.

  Lemma first_leaf_head v x : first_leaf v = Ok x <-> head_leaf x v.
  Proof.
    revert x; induction v as [|b|z|q|s|s|c n|k l IH] using pv_ind'; intro x; simpl;
      try (split; [intros [= <-]; now constructor|intro H; inversion H; auto]; fail).
    destruct l as [|y l]; [split; [discriminate|]; intro H; inversion H; subst; discriminate|].
    inversion IH as [|? ? Hy Hl]; subst. rewrite Hy. split.
    - intro H. now constructor.
    - intro H; inversion H; subst; [discriminate|]. assumption.
  Qed.

  Lemma item_ok_spec ts v : item_ok W ts v = true <-> Declared W ts v.
  Proof.
    unfold item_ok, Declared. rewrite andb_true_iff, isinstance_any_spec, orb_true_iff, negb_true_iff.
    assert (HB : existsb is_tbool ts = true <-> In TBool ts).
    { rewrite existsb_exists. split.
      - intros [t [H1 H2]]. destruct t; try discriminate. exact H1.
      - intro H. exists TBool. auto. }
    rewrite HB. split; intros [H1 H2]; split; auto.
    - intros [b ->]. destruct H2 as [H2|H2]; [auto|discriminate].
    - destruct v; simpl; auto. left. apply H2. eauto.
  Qed.

  Lemma check_items_spec ts l : check_items W ts l = Ok tt <-> forall x, In x l -> Declared W ts x.
  Proof.
    induction l as [|v l IH]; simpl; [split; [intros _ x []|reflexivity]|].
    destruct (item_ok W ts v) eqn:E.
    - apply item_ok_spec in E. rewrite IH. split.
      + intros H x [<-|Hx]; auto.
      + intros H x Hx. auto.
    - split; [discriminate|]. intro H. assert (D : Declared W ts v) by auto.
      apply item_ok_spec in D. congruence.
  Qed.

  Lemma check_items_err ts l e : check_items W ts l = Err e -> e = TypeError.
  Proof. induction l; simpl; [discriminate|]. destruct (item_ok W ts a); auto. congruence. Qed.

  Lemma check_type_spec m v : check_type W m v = Ok tt <-> Conforms W m v.
  Proof.
    unfold check_type, Conforms. destruct (m_types m) as [ts|]; [|split; [intros _ ts H; discriminate|reflexivity]].
    assert (G : forall A B C : Prop, (forall ts', Some ts = Some ts' -> A /\ B /\ C) <-> A /\ B /\ C) by
      (intros; split; [intro H; apply (H ts eq_refl)|intros H ts' _; exact H]).
    transitivity ((is_iter v = true -> Container W m ts v) /\
      (nonempty_array v = false -> AllLeaves W ts v) /\ (nonempty_array v = true -> HeadLeaf W ts v)).
    2:{ split; [intros H ts' [= <-]; exact H|intro H; apply (H ts eq_refl)]. }
    clear G. unfold AllLeaves.
    assert (Scalar : is_iter v = false -> check_items W ts [v] = Ok tt <-> (forall x, leaf x v -> Declared W ts x)).
    { intro Hi. rewrite check_items_spec. split.
      - intros H x Hx. inversion Hx; subst; [|discriminate]. apply H. now left.
      - intros H x [<-|[]]. apply H. now constructor. }
    assert (Fin : is_iter v = false -> nonempty_array v = false ->
       check_items W ts [v] = Ok tt <->
       ((is_iter v = true -> Container W m ts v) /\
        (nonempty_array v = false -> forall x, leaf x v -> Declared W ts x) /\
        (nonempty_array v = true -> HeadLeaf W ts v))).
    { intros Hi Hn. rewrite (Scalar Hi), Hi, Hn. split; [intro H; split; [discriminate|split; [auto|discriminate]]|].
      intros [_ [H _]]; auto. }
    destruct v as [|b|z|q|s|s|c n|k l]; try (apply Fin; reflexivity).
    clear Fin.
    clear Scalar. simpl is_iter.
    destruct (isinstance_any W (PIter k l) ts || m_multi m)%bool eqn:EC.
    - assert (HC : Container W m ts (PIter k l)).
      { apply orb_true_iff in EC. destruct EC as [H|H]; [right; now apply isinstance_any_spec|now left]. }
      assert (HF : check_items W ts (flat_map flatten l) = Ok tt <-> (forall x, leaf x (PIter k l) -> Declared W ts x)).
      { rewrite check_items_spec. split; intros H x Hx; apply H.
        - now apply flatten_leaf in Hx.
        - apply flatten_leaf. exact Hx. }
      destruct k; [| |destruct l as [|y l]].
      + rewrite HF. cbn [nonempty_array]. split; [intro H; split; [auto|split; [auto|discriminate]]|intros [_ [H _]]; auto].
      + rewrite HF. cbn [nonempty_array]. split; [intro H; split; [auto|split; [auto|discriminate]]|intros [_ [H _]]; auto].
      + rewrite HF. cbn [nonempty_array]. split; [intro H; split; [auto|split; [auto|discriminate]]|intros [_ [H _]]; auto].
      + cbn [nonempty_array]. split.
        * intro H. split; [auto|]. split; [discriminate|]. intros _.
          destruct (first_leaf (PIter ArrK (y :: l))) as [x|] eqn:Ex; [|discriminate].
          exists x. split; [now apply first_leaf_head|]. cbn [rbind] in H. apply check_items_spec with (x := x) in H; auto. now left.
        * intros [_ [_ H]]. destruct (H eq_refl) as [x [Hx Dx]]. apply first_leaf_head in Hx. rewrite Hx.
          cbn [rbind]. apply check_items_spec. intros z [<-|[]]. exact Dx.
    - split; [discriminate|]. intros [H _]. specialize (H eq_refl). exfalso.
      apply orb_false_iff in EC. destruct EC as [E1 E2]. destruct H as [H|H]; [congruence|].
      apply isinstance_any_spec in H. congruence.
  Qed.

  (** ** AviaryValues invariant *)
  Variable find_unit : string -> option unit_def.

  Lemma compat_spec m s : check_units_compat find_unit m (UStr s) = Ok tt <-> UnitsFit find_unit m s.
  Proof.
    unfold check_units_compat, UnitsFit, UnitsModel.convert_units, convertible.
    destruct (String.eqb (m_units m) "") eqn:E1; simpl.
    { apply String.eqb_eq in E1. split; auto. }
    destruct (String.eqb s "") eqn:E2; simpl.
    { apply String.eqb_eq in E2. split; auto. }
    apply String.eqb_neq in E1, E2.
    destruct (find_unit (m_units m)) as [a|]; destruct (find_unit s) as [b|]; simpl;
      try (split; [discriminate|]; intros [H|[H|[a' [b' [H1 [H2 H3]]]]]]; congruence).
    destruct (dim_eqb (udim a) (udim b)) eqn:D; simpl.
    - apply dim_eqb_true in D. split; auto. intros _. right; right. eauto.
    - split; [discriminate|]. intros [H|[H|[a' [b' [H1 [H2 H3]]]]]]; try congruence.
      injection H1 as <-; injection H2 as <-. apply dim_eqb_true in H3. congruence.
  Qed.

  Lemma In_dset {A} k (x : A) d k' y : In (k', y) (dset k x d) -> (k' = k /\ y = x) \/ In (k', y) d.
  Proof.
    induction d as [|[k0 x0] d IH]; simpl.
    - intros [[= <- <-]|[]]. auto.
    - destruct (String.eqb k k0) eqn:E; simpl.
      + apply String.eqb_eq in E; subst. intros [[= <- <-]|H]; auto.
      + intros [H|H]; auto. destruct (IH H); auto.
  Qed.
  Lemma In_ddel {A} k (d : dict A) x : In x (ddel k d) -> In x d.
  Proof.
    induction d as [|[k0 x0] d IH]; simpl; [tauto|]. destruct (String.eqb k k0); simpl; intuition.
  Qed.

  Lemma av_set_agrees md c k v u :
    Agrees W find_unit md c -> Agrees W find_unit md (fst (av_set_val W find_unit md c k v u)).
  Proof.
    intro A. unfold av_set_val. destruct (dget k md) as [m|] eqn:Em.
    - destruct (cast_type W m v) as [v'|]; [|exact A].
      destruct (check_type W m v') as [[]|] eqn:Ec; [|exact A].
      destruct (check_units_compat find_unit m u) as [[]|] eqn:Eu; [|exact A].
      unfold set_val. destruct u as [| |s]; simpl; try exact A.
      intros k1 v1 u1 m1 Hin Hm. apply In_dset in Hin. destruct Hin as [[-> [= -> ->]]|Hin]; [|eapply A; eauto].
      rewrite Em in Hm. injection Hm as <-. split.
      + now apply check_type_spec.
      + now apply compat_spec.
    - unfold set_val. destruct u as [| |s]; simpl; try exact A.
      intros k1 v1 u1 m1 Hin Hm. apply In_dset in Hin. destruct Hin as [[-> _]|Hin]; [congruence|eapply A; eauto].
  Qed.

  Lemma av_loop_agrees md es c :
    Agrees W find_unit md c -> Agrees W find_unit md (fst (av_loop W find_unit md c es)).
  Proof.
    revert c; induction es as [|[k v u|e] es IH]; intros c A; simpl; auto.
    pose proof (av_set_agrees md c k v u A) as A'.
    destruct (av_set_val W find_unit md c k v u) as [c' [[]|]]; simpl in *; auto.
  Qed.

  Lemma av_step_agrees md c o :
    Agrees W find_unit md c -> Agrees W find_unit md (fst (av_step W find_unit md c o)).
  Proof.
    intro A. destruct o as [k v u|o1 kw|k|]; simpl.
    - now apply av_set_agrees.
    - pose proof (av_loop_agrees md o1 c A) as A1.
      destruct (av_loop W find_unit md c o1) as [c' [[]|]]; simpl in *; auto. now apply av_loop_agrees.
    - unfold delete. destruct (dget k c); simpl; auto.
      intros k1 v1 u1 m1 Hin. apply In_ddel in Hin. eapply A; eauto.
    - intros k1 v1 u1 m1 [].
  Qed.

  Lemma av_run_agrees md h c : Agrees W find_unit md c -> Agrees W find_unit md (av_run W find_unit md c h).
  Proof.
    revert c; induction h as [|o h IH]; intros c A; simpl; auto. apply IH. now apply av_step_agrees.
  Qed.

  Lemma av_run_init md h : Agrees W find_unit md (av_run W find_unit md [] h).
  Proof. apply av_run_agrees. intros k v u m []. Qed.

  (** A call is accepted only if it conforms, and a rejected call stores nothing. *)
  Lemma av_set_reject md c k v u e :
    snd (av_set_val W find_unit md c k v u) = Err e -> fst (av_set_val W find_unit md c k v u) = c.
  Proof.
    unfold av_set_val, set_val. destruct (dget k md) as [m|].
    - destruct (cast_type W m v) as [v'|]; auto. destruct (check_type W m v'); auto.
      destruct (check_units_compat find_unit m u); auto. destruct u; simpl; auto; discriminate.
    - destruct u; simpl; auto; discriminate.
  Qed.

  (** A value that already conforms at the top level is stored as given. *)
  Lemma av_set_exact md c k v s m ts :
    dget k md = Some m -> m_types m = Some ts ->
    (exists t, In t ts /\ InstOf W v t) -> Conforms W m v -> UnitsFit find_unit m s ->
    av_set_val W find_unit md c k v (UStr s) = (dset k (v, s) c, Ok tt).
  Proof.
    intros Hm Ht Hi Hc Hu. unfold av_set_val. rewrite Hm.
    unfold cast_type. rewrite Ht. rewrite (proj2 (isinstance_any_spec v ts) Hi).
    rewrite (proj2 (check_type_spec m v) Hc), (proj2 (compat_spec m s) Hu). reflexivity.
  Qed.

  (** ** cast_type *)
  Lemma cast_conforming m ts v :
    m_types m = Some ts -> (exists t, In t ts /\ InstOf W v t) -> cast_type W m v = Ok v.
  Proof. intros Ht Hi. unfold cast_type. rewrite Ht, (proj2 (isinstance_any_spec v ts) Hi). reflexivity. Qed.

  Lemma first_enum_None ts : first_enum ts = None -> forall c, ~ In (TEnum c) ts.
  Proof.
    unfold first_enum. intros H c Hin.
    destruct (find _ ts) as [t|] eqn:E.
    - apply find_some in E. destruct E as [_ E]. destruct t; discriminate.
    - apply find_none with (x := TEnum c) in E; auto. discriminate.
  Qed.
  Lemma first_enum_Some ts c : first_enum ts = Some c -> In (TEnum c) ts.
  Proof.
    unfold first_enum. destruct (find _ ts) as [t|] eqn:E; [|discriminate].
    apply find_some in E. destruct E as [H1 H2]. destruct t; try discriminate. now intros [= ->].
  Qed.

  (** For a scalar every successful conversion yields an instance of the target type. *)
  Lemma conv_instance t v w : conv W t v = Ok w -> InstOf W w t.
  Proof.
    destruct t; simpl.
    - destruct (truthy v); simpl; [|discriminate]. intros [= <-]. constructor.
    - destruct v; try discriminate; try (intros [= <-]; constructor).
      + destruct (parse_int W s); [|discriminate]. intros [= <-]. constructor.
      + destruct (int_enum W cls); [|discriminate]. destruct (enum_int W cls name); simpl; [|discriminate].
        intros [= <-]. constructor.
    - destruct v; try discriminate; try (intros [= <-]; constructor).
      + destruct (parse_float W s); [|discriminate]. intros [= <-]. constructor.
      + destruct (int_enum W cls); [|discriminate]. destruct (enum_int W cls name); simpl; [|discriminate].
        intros [= <-]. constructor.
    - destruct v; intros [= <-]; constructor.
    - destruct v; try discriminate; intros [= <-]; constructor.
    - discriminate.
    - destruct v; try discriminate; intros [= <-]; constructor.
    - destruct v; try discriminate; intros [= <-]; constructor.
    - discriminate.
  Qed.

  Lemma attempts_scalar ts v :
    is_iter v = false ->
    attempts W ts v = v \/ exists t, In t ts /\ InstOf W (attempts W ts v) t.
  Proof.
    intro Hi. induction ts as [|t ts IH]; simpl; auto.
    destruct (attempt W t v) as [w|] eqn:E.
    - assert (D : w = v \/ InstOf W w t).
      { destruct v; try discriminate; simpl in E; destruct t; try (injection E as <-; auto; fail);
          try (right; injection E as <-; constructor);
          right; eapply conv_instance; exact E. }
      destruct D as [->|D]; [left; reflexivity|right; exists t; auto].
    - destruct IH as [IH|[t' [H1 H2]]]; auto. right. exists t'. auto.
  Qed.

  Lemma enum_by_value_inst c v w : enum_by_value W c v = Ok w -> exists n, w = PEnum c n /\ In n (map fst (members W c)).
  Proof.
    unfold enum_by_value. destruct (find _ _) as [[n x]|] eqn:E; [|discriminate]. intros [= <-].
    exists n. split; auto. apply find_some in E. destruct E as [E _]. now apply (in_map fst) in E.
  Qed.
  Lemma enum_by_name_inst c s w : enum_by_name W c s = Ok w -> w = PEnum c s /\ In s (map fst (members W c)).
  Proof.
    unfold enum_by_name. destruct (find _ _) as [[n x]|] eqn:E; [|discriminate]. intros [= <-].
    apply find_some in E. destruct E as [E1 E2]. simpl in E2. apply String.eqb_eq in E2; subst.
    split; auto. now apply (in_map fst) in E1.
  Qed.

  Lemma enum_scalar_inst c v w :
    is_iter v = false -> enum_setter W c v = Ok w -> w = v \/ InstOf W w (TEnum c).
  Proof.
    intros Hi H. destruct v; try discriminate; simpl in H.
    - right. apply enum_by_value_inst in H. destruct H as [n [-> _]]. constructor.
    - right. apply enum_by_value_inst in H. destruct H as [n [-> _]]. constructor.
    - right. unfold enum_of_str in H. destruct (enum_by_value W c (PStr s)) eqn:E.
      + injection H as <-. apply enum_by_value_inst in E. destruct E as [n [-> _]]. constructor.
      + apply enum_by_name_inst in H. destruct H as [-> _]. constructor.
    - left. congruence.
  Qed.

  (** Casting a scalar yields the scalar itself or an instance of a declared type. *)
  Lemma cast_scalar m ts v w :
    m_types m = Some ts -> is_iter v = false -> cast_type W m v = Ok w ->
    w = v \/ exists t, In t ts /\ InstOf W w t.
  Proof.
    intros Ht Hi. unfold cast_type. rewrite Ht. destruct (isinstance_any W v ts); [intros [= <-]; auto|].
    destruct (first_enum ts) as [c|] eqn:Ee.
    - intro H. destruct (enum_scalar_inst c v w Hi H) as [->|H']; auto.
      right. exists (TEnum c). split; auto. now apply first_enum_Some.
    - intros [= <-]. now apply attempts_scalar.
  Qed.

  Lemma cast_idem_scalar m v w :
    is_iter v = false -> cast_type W m v = Ok w -> cast_type W m w = Ok w.
  Proof.
    intros Hi H. destruct (m_types m) as [ts|] eqn:Ht; [|unfold cast_type in H; rewrite Ht in H; discriminate].
    destruct (cast_scalar m ts v w Ht Hi H) as [->|D]; auto. now apply cast_conforming with ts.
  Qed.

  (** Enum lookup specification: by value first, otherwise by upper-cased member name. *)
  Lemma cast_enum_value m c s n :
    m_types m = Some [TEnum c] -> NoDup (map snd (members W c)) -> In (n, PStr s) (members W c) ->
    cast_type W m (PStr s) = Ok (PEnum c n).
  Proof.
    intros Ht ND Hin. unfold cast_type. rewrite Ht. simpl.
    unfold enum_of_str, enum_by_value.
    destruct (find (fun nv => pv_eqb (snd nv) (PStr s)) (members W c)) as [[n' x]|] eqn:E.
    - apply find_some in E. destruct E as [E1 E2]. simpl in E2. destruct x; try discriminate.
      simpl in E2. apply String.eqb_eq in E2; subst s0.
      assert (n' = n); [|now subst].
      clear -ND Hin E1. induction (members W c) as [|[a b] l IH]; simpl in *; [tauto|].
      inversion ND as [|? ? H1 H2]; subst.
      destruct Hin as [Hin|Hin], E1 as [E1|E1]; auto.
      + congruence.
      + injection Hin as -> ->. exfalso. apply H1. now apply (in_map snd) in E1.
      + injection E1 as -> ->. exfalso. apply H1. now apply (in_map snd) in Hin.
    - apply find_none with (x := (n, PStr s)) in E; auto. simpl in E. now rewrite String.eqb_refl in E.
  Qed.

  Lemma cast_enum_name m c s x :
    m_types m = Some [TEnum c] -> (forall n, ~ In (n, PStr s) (members W c)) ->
    In (upper s, x) (members W c) ->
    cast_type W m (PStr s) = Ok (PEnum c (upper s)).
  Proof.
    intros Ht Hno Hin. unfold cast_type. rewrite Ht. simpl.
    unfold enum_of_str, enum_by_value.
    destruct (find (fun nv => pv_eqb (snd nv) (PStr s)) (members W c)) as [[n' y]|] eqn:E.
    - apply find_some in E. destruct E as [E1 E2]. simpl in E2. destruct y; try discriminate.
      simpl in E2. apply String.eqb_eq in E2; subst s0. exfalso. eapply Hno; eauto.
    - unfold enum_by_name. destruct (find (fun nv => String.eqb (fst nv) (upper s)) (members W c)) as [[n' y]|] eqn:E'.
      + apply find_some in E'. destruct E' as [_ E']. simpl in E'. apply String.eqb_eq in E'. now subst.
      + apply find_none with (x := (upper s, x)) in E'; auto. simpl in E'. now rewrite String.eqb_refl in E'.
  Qed.

  Lemma cast_enum_unknown m c s :
    m_types m = Some [TEnum c] -> (forall n, ~ In (n, PStr s) (members W c)) ->
    (forall x, ~ In (upper s, x) (members W c)) ->
    cast_type W m (PStr s) = Err AttributeError.
  Proof.
    intros Ht Hno Hno2. unfold cast_type. rewrite Ht. simpl.
    unfold enum_of_str, enum_by_value.
    destruct (find (fun nv => pv_eqb (snd nv) (PStr s)) (members W c)) as [[n' y]|] eqn:E.
    - apply find_some in E. destruct E as [E1 E2]. simpl in E2. destruct y; try discriminate.
      simpl in E2. apply String.eqb_eq in E2; subst s0. exfalso. eapply Hno; eauto.
    - unfold enum_by_name. destruct (find (fun nv => String.eqb (fst nv) (upper s)) (members W c)) as [[n' y]|] eqn:E'; auto.
      apply find_some in E'. destruct E' as [E1 E2]. simpl in E2. apply String.eqb_eq in E2. subst. exfalso. eapply Hno2; eauto.
  Qed.

  (** Iterables of a single declared non-enum type: cast element-wise, keeping kind and length. *)
  Lemma conv_all_Forall2 t l ys : conv_all W t l = Ok ys -> Forall2 (fun x y => conv W t x = Ok y) l ys.
  Proof.
    revert ys; induction l as [|x l IH]; simpl; intros ys H; [injection H as <-; constructor|].
    destruct (conv W t x) eqn:E; simpl in H; [|discriminate].
    destruct (conv_all W t l) eqn:E2; simpl in H; [|discriminate]. injection H as <-. constructor; auto.
  Qed.

  Lemma cast_iter_elementwise m t k l w :
    m_types m = Some [t] -> (forall c, t <> TEnum c) -> cast_type W m (PIter k l) = Ok w ->
    w = PIter k l \/ exists ys, w = PIter k ys /\ Forall2 (fun x y => conv W t x = Ok y) l ys /\ Forall (fun y => InstOf W y t) ys.
  Proof.
    intros Ht Hne. unfold cast_type. rewrite Ht. destruct (isinstance_any W (PIter k l) [t]); [intros [= <-]; auto|].
    assert (E : first_enum [t] = None) by (unfold first_enum; simpl; destruct t; auto; exfalso; eapply Hne; eauto).
    rewrite E. simpl. destruct (conv_all W t l) as [ys|] eqn:Ea; simpl; intros [= <-]; auto.
    right. exists ys. apply conv_all_Forall2 in Ea. repeat split; auto.
    clear -Ea. induction Ea; constructor; auto. eapply conv_instance; eauto.
  Qed.
End P.

(** ** A concrete Python world for the witnesses *)
Definition world : py := {|
  members := fun c => if String.eqb c "LegacyCode" then [("FLOPS", PStr "FLOPS"); ("GASP", PStr "GASP")]
                      else if String.eqb c "Verbosity" then [("QUIET", PInt 0); ("BRIEF", PInt 1)] else [];
  int_enum := fun c => String.eqb c "Verbosity";
  parse_int := fun s => if String.eqb s "2" then Some 2%Z else None;
  parse_float := fun s => if String.eqb s "2" then Some (ztoqc 2) else if String.eqb s "1.5" then Some (Q2Qc (3 # 2)) else None;
  to_str := fun _ => "x"
|}.

Definition mk ts multi := {| m_types := Some ts; m_multi := multi; m_units := "unitless" |}.

Lemma enum_list_collapses :
  cast_type world (mk [TEnum "LegacyCode"] true) (PIter ListK [PStr "FLOPS"; PStr "GASP"])
  = Ok (PEnum "LegacyCode" "FLOPS").
Proof. reflexivity. Qed.

Lemma bool_list_truthiness :
  cast_type world (mk [TBool] true) (PIter ListK [PStr "False"]) = Ok (PIter ListK [PBool true]).
Proof. reflexivity. Qed.

Lemma int_truncates :
  exists w, cast_type world (mk [TInt] false) (PFloat (Q2Qc (27 # 10))) = Ok w /\ w = PInt 2.
Proof. eexists. split; vm_compute; reflexivity. Qed.

Lemma iter_not_idempotent :
  exists m v w x, cast_type world m v = Ok w /\ cast_type world m w = Ok x /\ w <> x.
Proof.
  exists (mk [TInt; TFloat] true), (PIter ListK [PStr "1.5"]),
    (PIter ListK [PFloat (Q2Qc (3 # 2))]), (PIter ListK [PInt 1]).
  repeat split; try reflexivity. discriminate.
Qed.

Lemma array_second_leaf_unchecked :
  exists ts v, check_type world (mk ts true) v = Ok tt /\ ~ AllLeaves world ts v.
Proof.
  exists [TFloat], (PIter ArrK [PFloat (ztoqc 1); PNone]). split; [reflexivity|].
  intro H. assert (D : Declared world [TFloat] PNone).
  { apply H. apply leaf_in with PNone; [right; now left|now constructor]. }
  destruct D as [[t [[<-|[]] Hi]] _]. inversion Hi.
Qed.

Lemma none_types_never_set :
  forall W find_unit md c k v u m, dget k md = Some m -> m_types m = None ->
    av_set_val W find_unit md c k v u = (c, Err TypeError).
Proof. intros W f md c k v u m H1 H2. unfold av_set_val, cast_type. rewrite H1, H2. reflexivity. Qed.

(** Casting a scalar to a float option keeps the number it stands for; if there is none, the value is
    left alone. *)
Lemma cast_float_exact W m v :
  m_types m = Some [TFloat] -> is_iter v = false -> (forall c n, v <> PEnum c n) ->
  cast_type W m v = Ok (match number W v with Some q => PFloat q | None => v end).
Proof.
  intros Ht Hi He. unfold cast_type. rewrite Ht.
  destruct v; simpl; try reflexivity; try discriminate.
  - destruct (parse_float W s); reflexivity.
  - exfalso. now apply (He cls name).
Qed.
(** Casting to an int option: integers are kept, booleans are ints already, floats are truncated toward zero. *)
Lemma cast_int_exact W m v :
  m_types m = Some [TInt] ->
  match v with
  | PInt _ => cast_type W m v = Ok v
  | PBool _ => cast_type W m v = Ok v
  | PFloat q => cast_type W m v = Ok (PInt (trunc q))
  | PStr s => cast_type W m v = Ok (match parse_int W s with Some z => PInt z | None => v end)
  | PNone => cast_type W m v = Ok v
  | _ => True
  end.
Proof.
  intros Ht. unfold cast_type. rewrite Ht. destruct v; simpl; try reflexivity; try exact I.
  destruct (parse_int W s); reflexivity.
Qed.
