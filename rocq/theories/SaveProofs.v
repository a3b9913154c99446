(** Lemmas for saving and reloading. *)
From Coq Require Import QArith Qcanon Ascii.
From Verif Require Import Base NVModel UnitsModel UnitsProofs TypesModel TypesSpec TypesProofs CsvModel StrModel SaveModel.
Open Scope nat_scope.
Open Scope string_scope.
Open Scope list_scope.

(** ** Specification: what becomes of a value *)
Definition no_char (a : ascii) (s : string) : Prop := ~ In a (list_ascii_of_string s).

(** An enum member that can be found again by its name. *)
Definition plain_member (W : py) (c n : string) : Prop :=
  (exists x, In (n, x) (members W c)) /\ upper n = n /\
  (forall n' , In (n', PStr n) (members W c) -> n' = n) /\
  (forall a, In a (list_ascii_of_string n) ->
     (65 <= nat_of_ascii a <= 90 \/ 48 <= nat_of_ascii a <= 57 \/ a = "_"%char)%nat) /\
  (exists a n', n = String a n' /\ (65 <= nat_of_ascii a <= 90)%nat) /\
  n <> "TRUE" /\ n <> "FALSE".

(** Numbers nested to any depth in containers; [deep k] is the kind allowed below the top. *)
Inductive numbers (W : py) (t : ptype) (arr : bool) : pv -> Prop :=
| n_scalar : forall x, is_iter x = false -> InstOf W x t -> (forall b, x <> PBool b) ->
             (forall c n, x <> PEnum c n) -> numbers W t arr x
| n_iter : forall k l, (k = ArrK <-> arr = true) -> Forall (numbers W t arr) l -> numbers W t arr (PIter k l).

(** The same numbers in lists. *)
Inductive relisted : pv -> pv -> Prop :=
| r_scalar : forall x, is_iter x = false -> relisted x x
| r_iter : forall k l l', Forall2 relisted l l' -> relisted (PIter k l) (PIter ListK l').

(** [returns W ts multi v v']: a variable with declared types [ts] that held [v] holds [v'] again. *)
Inductive returns (W : py) (ts : list ptype) (multi : bool) : pv -> pv -> Prop :=
| ret_scalar : forall v, (exists b, v = PBool b /\ In TBool ts) \/
                         (exists z, v = PInt z /\ In TInt ts) \/ (exists q, v = PFloat q /\ In TFloat ts) \/
                         (exists s, v = PStr s /\ In TStr ts) -> returns W ts multi v v
| ret_enum : forall c n, first_enum ts = Some c -> ~ In TList ts -> plain_member W c n ->
             returns W ts multi (PEnum c n) (PEnum c n)
| ret_path : forall s, ts = [TPath] -> returns W ts multi (PPath s) (PPath s)
| ret_path_text : forall s, In TStr ts -> returns W ts multi (PPath s) (PStr s)
| ret_numbers : forall t k l v' arr, multi = true -> ts = [t] -> (t = TInt \/ t = TFloat) ->
             numbers W t arr (PIter k l) -> (k = ListK -> l <> []) -> relisted (PIter k l) v' ->
             returns W ts multi (PIter k l) v'.

(** ** Lemmas *)
Section L.
  Variable W : py.
  Variable fu : string -> option unit_def.

  Definition dump_list : list pv -> res (list json) :=
    fix go (l : list pv) : res (list json) :=
      match l with
      | [] => Ok []
      | x :: l' => rbind (dump W x) (fun y => rbind (go l') (fun ys => Ok (y :: ys)))
      end.

  Lemma dump_iter k l : dump W (PIter k l) =
    match k with ArrK => Err TypeError | _ => rbind (dump_list l) (fun js => Ok (JArr js)) end.
  Proof. destruct k; reflexivity. Qed.

  (** Numbers survive the JSON tree. *)
  Lemma numbers_dump t v v' : (t = TInt \/ t = TFloat) -> numbers W t false v -> relisted v v' ->
    exists j, dump W v = Ok j /\ undump j = v'.
  Proof.
    intro T. revert v'. induction v as [|b|z|q|s|s|c n|k l IH] using pv_ind'; intros v' N R.
    all: try (inversion R; subst; eexists; split; reflexivity).
    1-2: inversion N; subst; destruct T as [-> | ->]; inversion H0.
    - inversion N; subst. exfalso. eapply H2. reflexivity.
    - rewrite dump_iter. inversion N as [|? ? K F]; subst; [discriminate|].
      destruct k; [| |exfalso; assert (X : false = true) by (now apply K); discriminate].
      all: inversion R as [|? ? l' R']; subst; [discriminate|].
      all: assert (D : exists js, dump_list l = Ok js /\ map undump js = l').
      1,3: clear R N K; revert l' R'; induction l as [|x l IHl]; intros l' R'; inversion R' as [|? y ? ys]; subst;
        [exists []; split; reflexivity|];
        inversion IH; subst; inversion F; subst;
        destruct (H3 y) as (j & Ej & Uj); [assumption|assumption|];
        destruct (IHl H4 H6 ys) as (js & Ejs & Ujs); [assumption|];
        exists (j :: js); cbn; rewrite Ej; cbn; fold dump_list; rewrite Ejs; cbn; split; [reflexivity|congruence].
      all: destruct D as (js&E&U); rewrite E; exists (JArr js); split; [reflexivity|]; cbn; congruence.
  Qed.

  Lemma numbers_tolist t v v' : (t = TInt \/ t = TFloat) -> numbers W t true v -> relisted v v' ->
    exists j, dump W (tolist v) = Ok j /\ undump j = v'.
  Proof.
    intro T. revert v'. induction v as [|b|z|q|s|s|c n|k l IH] using pv_ind'; intros v' N R.
    all: try (inversion R; subst; eexists; split; reflexivity).
    1-2: inversion N; subst; destruct T as [-> | ->]; inversion H0.
    - inversion N; subst. exfalso. eapply H2. reflexivity.
    - inversion N as [|? ? K F]; subst; [discriminate|].
      assert (k = ArrK) by now apply K. subst k. cbn [tolist]. rewrite dump_iter.
      inversion R as [|? ? l' R']; subst; [discriminate|].
      assert (D : exists js, dump_list (map tolist l) = Ok js /\ map undump js = l').
      { clear R N K. revert l' R'. induction l as [|x l IHl]; intros l' R'; inversion R' as [|? y ? ys]; subst;
        [exists []; split; reflexivity|].
        inversion IH; subst; inversion F; subst.
        destruct (H3 y) as (j & Ej & Uj); [assumption|assumption|].
        destruct (IHl H4 H6 ys) as (js & Ejs & Ujs); [assumption|].
        exists (j :: js). cbn. rewrite Ej. cbn. fold dump_list. rewrite Ejs. cbn. split; [reflexivity|congruence]. }
      destruct D as (js&E&U). rewrite E. exists (JArr js). split; [reflexivity|]. cbn. congruence.
  Qed.

  (** Relisted numbers are numbers. *)
  Lemma relisted_numbers t arr v v' : numbers W t arr v -> relisted v v' -> numbers W t false v'.
  Proof.
    revert v'. induction v as [|b|z|q|s|s|c n|k l IH] using pv_ind'; intros v' N R.
    1-7: inversion R; subst; inversion N; subst; now constructor.
    inversion R as [|? ? l' R']; subst; [discriminate|]. inversion N as [|? ? K F]; subst; [discriminate|].
    constructor; [split; discriminate|]. clear R N K.
    induction R'; [constructor|]. inversion IH; subst. inversion F; subst. constructor; auto.
  Qed.

  Lemma numbers_leaf t arr v x : numbers W t arr v -> leaf x v -> InstOf W x t /\ (forall b, x <> PBool b).
  Proof.
    revert x. induction v as [|b|z|q|s|s|c n|k l IH] using pv_ind'; intros x N Lf.
    1-7: inversion Lf; subst; inversion N; subst; auto.
    inversion Lf as [? Hi|? y ? ? Iy Ly]; subst; [discriminate|].
    inversion N as [|? ? K F]; subst; [discriminate|].
    rewrite Forall_forall in IH, F. eapply IH; eauto.
  Qed.

  (** Casting a list of numbers of the declared type changes nothing. *)
  Lemma numbers_cast t arr l : (t = TInt \/ t = TFloat) -> Forall (numbers W t arr) l ->
    attempts W [t] (PIter ListK l) = PIter ListK l.
  Proof.
    intros T F. cbn [attempts attempt].
    assert (C : conv_all W t l = Ok l \/ exists e, conv_all W t l = Err e).
    { induction l as [|x l IH]; [left; reflexivity|]. inversion F as [|? ? Nx Fl]; subst. cbn [conv_all].
      assert (X : conv W t x = Ok x \/ exists e, conv W t x = Err e).
      { inversion Nx as [y Hi I NB NE|k l0 _ _]; subst.
        - destruct T as [-> | ->]; inversion I; subst; try (left; reflexivity).
          + exfalso. eapply NB. reflexivity.
          + exfalso. eapply NE. reflexivity.
        - right. destruct T as [-> | ->]; eexists; reflexivity. }
      destruct X as [->|[e ->]]; [|right; exists e; reflexivity].
      cbn [rbind]. destruct (IH Fl) as [->|[e ->]]; [left; reflexivity|right; exists e; reflexivity]. }
    destruct C as [->|[e ->]]; reflexivity.
  Qed.

  Lemma numbers_no_angle t arr l : (t = TInt \/ t = TFloat) -> Forall (numbers W t arr) l -> existsb has_angle l = false.
  Proof.
    intros T F. induction F as [|x l Nx F IH]; [reflexivity|]. cbn. rewrite IH, orb_false_r.
    inversion Nx as [y Hi I _ _|k l0 _ _]; subst; [|reflexivity].
    destruct T as [-> | ->]; inversion I; reflexivity.
  Qed.

  Lemma numbers_prepare t arr k l : (t = TInt \/ t = TFloat) -> numbers W t arr (PIter k l) -> (k = ListK -> l <> []) ->
    prepare W (PIter k l) = Ok (if arr then tolist (PIter k l) else PIter k l).
  Proof.
    intros T N NE. inversion N as [|? ? K F]; subst; [discriminate|].
    destruct arr.
    - assert (k = ArrK) by now apply K. subst k. reflexivity.
    - destruct k; [|reflexivity|exfalso; assert (X : false = true) by (now apply K); discriminate].
      destruct l as [|x l]; [now destruct (NE eq_refl)|]. inversion F as [|? ? Nx _]; subst.
      inversion Nx as [y Hi I _ NEn|]; subst; [|reflexivity].
      destruct x; try reflexivity.
      + destruct T as [-> | ->]; inversion I.
      + exfalso. eapply NEn. reflexivity.
  Qed.

  (** ** Enum names *)
  Lemma up_char (a : ascii) : (65 <= nat_of_ascii a <= 90 \/ 48 <= nat_of_ascii a <= 57 \/ a = "_"%char)%nat ->
    is_noise a = false /\ is_colon a = false /\ is_bracket a = false /\ is_dot a = false.
  Proof.
    intro H.
    assert (X : forall b : ascii, a = b -> (65 <= nat_of_ascii b <= 90 \/ 48 <= nat_of_ascii b <= 57 \/ b = "_"%char)%nat).
    { intros b <-. exact H. }
    assert (E : forall b : ascii, Ascii.eqb a b = true ->
                (65 <= nat_of_ascii b <= 90 \/ 48 <= nat_of_ascii b <= 57 \/ b = "_"%char)%nat).
    { intros b E. apply Ascii.eqb_eq in E. now apply X. }
    unfold is_noise, is_colon, is_bracket, is_dot.
    repeat match goal with
    | |- context [Ascii.eqb a ?b] => let Q := fresh in destruct (Ascii.eqb a b) eqn:Q;
        [apply E in Q; exfalso; destruct Q as [Q|[Q|Q]]; [cbn in Q; lia|cbn in Q; lia|discriminate]|]
    end.
    cbn. auto.
  Qed.

  Lemma split_none p cur l : (forall a, In a l -> p a = false) -> split_on p cur l = [rev cur ++ l].
  Proof.
    revert cur. induction l as [|c l IH]; intros cur H; [cbn; now rewrite app_nil_r|].
    cbn. rewrite (H c) by now left. rewrite IH by (intros a I; apply H; now right).
    cbn. now rewrite <- app_assoc.
  Qed.

  Lemma filter_all {A} (p : A -> bool) l : (forall a, In a l -> p a = true) -> filter p l = l.
  Proof.
    induction l as [|c l IH]; intro H; [reflexivity|]. cbn. rewrite (H c) by now left.
    now rewrite IH by (intros a I; apply H; now right).
  Qed.

  Lemma drop_none p l : (forall a, In a l -> p a = false) -> drop_while p l = l.
  Proof. destruct l as [|c l]; intro H; [reflexivity|]. cbn. now rewrite (H c) by now left. Qed.

  Lemma strip_none p l : (forall a, In a l -> p a = false) -> strip_of p l = l.
  Proof.
    intro H. unfold strip_of. rewrite (drop_none p l) by exact H.
    rewrite drop_none; [apply rev_involutive|]. intros a I. apply H. now apply in_rev.
  Qed.

  Lemma clean_name n : (forall a, In a (lit n) -> (65 <= nat_of_ascii a <= 90 \/ 48 <= nat_of_ascii a <= 57 \/ a = "_"%char)%nat) ->
    clean n = lit n.
  Proof.
    intro H. unfold clean. rewrite split_none by (intros a I; apply up_char; now apply H). cbn [rev app List.last].
    apply filter_all. intros a I. apply negb_true_iff. apply up_char. now apply H.
  Qed.

  Lemma lower_true n : (forall a, In a (lit n) -> (65 <= nat_of_ascii a <= 90 \/ 48 <= nat_of_ascii a <= 57 \/ a = "_"%char)%nat) ->
    forall m, str_eqb (lower (lit n)) (lower (lit m)) = true -> (forall a, In a (lit m) -> (65 <= nat_of_ascii a <= 90)%nat) -> n = m.
  Proof.
    intros H m E M. unfold str_eqb in E. destruct (list_eq_dec ascii_dec _ _) as [E'|]; [|discriminate].
    clear E. assert (X : lit n = lit m).
    { revert E' H M. generalize (lit n) (lit m). clear. unfold lower. intro l.
      induction l as [|a l IH]; intros [|b k] E H M; try discriminate; [reflexivity|].
      cbn in E. injection E as E1 E2. f_equal; [|apply IH; [exact E2|intros; apply H; now right|intros; apply M; now right]].
      assert (Ha := H a (or_introl eq_refl)). assert (Mb := M b (or_introl eq_refl)).
      unfold lower1 in E1.
      assert (Lb : (Nat.leb 65 (nat_of_ascii b) && Nat.leb (nat_of_ascii b) 90)%bool = true)
        by (apply andb_true_iff; split; apply Nat.leb_le; lia).
      rewrite Lb in E1.
      destruct (Nat.leb 65 (nat_of_ascii a) && Nat.leb (nat_of_ascii a) 90)%bool eqn:La.
      - apply andb_true_iff in La. destruct La as [L1 L2]. apply Nat.leb_le in L1, L2.
        apply (f_equal nat_of_ascii) in E1. rewrite !nat_ascii_embedding in E1 by lia.
        assert (nat_of_ascii a = nat_of_ascii b) by lia.
        rewrite <- (ascii_nat_embedding a), <- (ascii_nat_embedding b). congruence.
      - exfalso. apply (f_equal nat_of_ascii) in E1. rewrite nat_ascii_embedding in E1 by lia.
        destruct Ha as [Ha|[Ha|Ha]].
        + apply andb_false_iff in La. destruct La as [L|L]; apply Nat.leb_gt in L; lia.
        + lia.
        + subst a. cbn in E1. lia. }
    rewrite <- (string_of_list_ascii_of_string n), <- (string_of_list_ascii_of_string m).
    unfold lit in X. congruence.
  Qed.

  Lemma int_name n : (exists a n', n = String a n' /\ (65 <= nat_of_ascii a <= 90)%nat) ->
    (forall a, In a (lit n) -> (65 <= nat_of_ascii a <= 90 \/ 48 <= nat_of_ascii a <= 57 \/ a = "_"%char)%nat) -> py_int (lit n) = None.
  Proof.
    intros (a&n'&->&Ha) H. unfold py_int, strip. rewrite strip_none.
    - change (lit (String a n')) with (a :: lit n'). unfold sign.
      destruct (Ascii.eqb a "+") eqn:E1; [apply Ascii.eqb_eq in E1; subst; cbn in Ha; lia|].
      destruct (Ascii.eqb a "-") eqn:E2; [apply Ascii.eqb_eq in E2; subst; cbn in Ha; lia|].
      unfold digit_part. cbn [dpart]. unfold digit_val.
      replace (Nat.leb (nat_of_ascii a) 57) with false by (symmetry; apply Nat.leb_gt; lia).
      rewrite andb_false_r. reflexivity.
    - intros b I. specialize (H b I). unfold is_ws.
      assert (nat_of_ascii b = 95 \/ nat_of_ascii b <> 95)%nat by lia.
      destruct H as [H|[H|H]]; [| |subst b; reflexivity]; apply orb_false_iff; split; apply andb_false_iff;
        right; apply Nat.leb_gt; lia.
  Qed.

  Lemma convert_name n :
    (forall a, In a (list_ascii_of_string n) -> (65 <= nat_of_ascii a <= 90 \/ 48 <= nat_of_ascii a <= 57 \/ a = "_"%char)%nat) ->
    (exists a n', n = String a n' /\ (65 <= nat_of_ascii a <= 90)%nat) -> n <> "TRUE" -> n <> "FALSE" ->
    of_data (convert (clean n)) = PStr n.
  Proof.
    intros H A T F. rewrite clean_name by exact H. unfold convert.
    rewrite strip_none by (intros a I; apply up_char; now apply H).
    replace (has_dot (lit n)) with false.
    - rewrite int_name by assumption. unfold bool_or_str.
      destruct (str_eqb (lower (lit n)) (lit "true")) eqn:E1.
      { exfalso. apply T. apply lower_true; [exact H|exact E1|]. intros a I. cbn in I.
        repeat (destruct I as [<-|I]; [cbn; lia|]). destruct I. }
      destruct (str_eqb (lower (lit n)) (lit "false")) eqn:E2.
      { exfalso. apply F. apply lower_true; [exact H|exact E2|]. intros a I. cbn in I.
        repeat (destruct I as [<-|I]; [cbn; lia|]). destruct I. }
      cbn. unfold lit. now rewrite string_of_list_ascii_of_string.
    - symmetry. unfold has_dot. apply not_true_is_false. intro E. apply existsb_exists in E.
      destruct E as (a&I&E). apply H in I. apply up_char in I. destruct I as (_&_&_&I). congruence.
  Qed.

  Lemma enum_found c n : plain_member W c n -> enum_of_str W c n = Ok (PEnum c n).
  Proof.
    intros ((x&I)&U&V&_). unfold enum_of_str, enum_by_value.
    destruct (find (fun nv => pv_eqb (snd nv) (PStr n)) (members W c)) as [[n' y]|] eqn:E.
    - apply find_some in E. destruct E as [E1 E2]. cbn [snd] in E2. destruct y; try discriminate.
      apply String.eqb_eq in E2. subst s. rewrite (V n' E1). reflexivity.
    - rewrite U. unfold enum_by_name.
      destruct (find (fun nv => String.eqb (fst nv) n) (members W c)) as [[n' y]|] eqn:E'.
      + apply find_some in E'. destruct E' as [_ E2]. apply String.eqb_eq in E2. cbn in E2. now subst.
      + eapply find_none in E'; [|exact I]. cbn in E'. rewrite String.eqb_refl in E'. discriminate.
  Qed.

  (** ** One variable *)
  Lemma set_returned md c k v s m ts v' w :
    dget k md = Some m -> m_types m = Some ts -> UnitsFit fu m s ->
    cast_type W m w = Ok v' -> Conforms W m v' -> v = v' ->
    fst (av_set_val W fu md c k w (UStr s)) = dset k (v, s) c.
  Proof.
    intros Hm Ht Hu Hc Hv ->. unfold av_set_val. rewrite Hm, Hc.
    rewrite (proj2 (check_type_spec W m v') Hv), (proj2 (compat_spec fu m s) Hu). reflexivity.
  Qed.

  Lemma scalar_conforms m ts v : m_types m = Some ts -> is_iter v = false -> Declared W ts v -> Conforms W m v.
  Proof.
    intros Ht Hi D ts' Ht'. assert (ts' = ts) by congruence. subst ts'.
    split; [congruence|]. split.
    - intros _ x L. destruct v; inversion L; subst; try assumption; discriminate.
    - intro N. destruct v; try discriminate.
  Qed.

  Lemma return_step m ts v v' : m_types m = Some ts -> returns W ts (m_multi m) v v' ->
    exists w j i, prepare W v = Ok w /\ dump W w = Ok j /\ interpret (tag_of v) (undump j) = Ok i /\
                  cast_type W m i = Ok v' /\ Conforms W m v'.
  Proof.
    intros Ht R. destruct R as [v S|c n E NL P|s E|s E|t k l v' arr Mu E T N NE R].
    - assert (D : Declared W ts v /\ is_iter v = false /\ prepare W v = Ok v /\
                  (exists j, dump W v = Ok j /\ undump j = v) /\ tag_of v = TagOther).
      { destruct S as [(b&->&I)|[(z&->&I)|[(q&->&I)|(s&->&I)]]]; (split; [split|]);
          try (eexists; split; [exact I|constructor]); try (intros [b0 [=]]); auto;
          (split; [reflexivity|]); (split; [reflexivity|]); (split; [eexists; split; reflexivity|reflexivity]). }
      destruct D as (D&Hi&P&(j&J&U)&Tg). exists v, j, v. rewrite P, J, U, Tg.
      repeat (split; [reflexivity|]). split; [|now apply (scalar_conforms m ts)].
      apply (cast_conforming W m ts); [exact Ht|apply D].
    - exists (PStr n), (JStr n), (PIter ListK [PStr n]). split; [reflexivity|]. split; [reflexivity|].
      destruct P as (P1&P2&P3&P4&P5&P6&P7).
      split; [cbn; now rewrite convert_name|].
      split.
      + unfold cast_type. rewrite Ht.
        destruct (isinstance_any W (PIter ListK [PStr n]) ts) eqn:EI.
        { exfalso. apply isinstance_any_spec in EI. destruct EI as (t&I&J). inversion J. subst t. contradiction. }
        rewrite E. cbn [enum_setter enum_loop]. apply enum_found. repeat split; assumption.
      + apply (scalar_conforms m ts); [exact Ht|reflexivity|]. split; [|intros [b [=]]].
        exists (TEnum c). split; [now apply (first_enum_Some ts c)|constructor].
    - exists (PStr s), (JStr s), (PStr s). repeat (split; [reflexivity|]). subst ts. split.
      + unfold cast_type. rewrite Ht. reflexivity.
      + apply (scalar_conforms m [TPath]); [exact Ht|reflexivity|]. split; [|intros [b [=]]].
        exists TPath. split; [now left|constructor].
    - exists (PStr s), (JStr s), (PStr s). repeat (split; [reflexivity|]).
      assert (D : Declared W ts (PStr s)).
      { split; [|intros [b [=]]]. exists TStr. split; [exact E|constructor]. }
      split; [|now apply (scalar_conforms m ts)]. apply (cast_conforming W m ts); [exact Ht|apply D].
    - subst ts. pose proof (numbers_prepare t arr k l T N NE) as P.
      assert (J : exists j, dump W (if arr then tolist (PIter k l) else PIter k l) = Ok j /\ undump j = v').
      { destruct arr; [now apply (numbers_tolist t)|now apply (numbers_dump t)]. }
      destruct J as (j&J&U). exists (if arr then tolist (PIter k l) else PIter k l), j, v'.
      split; [exact P|]. split; [exact J|]. rewrite U.
      pose proof (relisted_numbers t arr _ _ N R) as N'.
      assert (L : exists l', v' = PIter ListK l') by (inversion R; subst; [discriminate|eauto]).
      destruct L as (l'&->). inversion N' as [|? ? _ F']; subst; [discriminate|].
      split.
      { destruct k; cbn [tag_of interpret]; try reflexivity. now rewrite (numbers_no_angle t false l'). }
      split.
      + unfold cast_type. rewrite Ht.
        replace (isinstance_any W (PIter ListK l') [t]) with false by (destruct T as [-> | ->]; reflexivity).
        replace (first_enum [t]) with (@None string) by (destruct T as [-> | ->]; reflexivity).
        now rewrite (numbers_cast t false l' T F').
      + intros ts' Ht'. assert (ts' = [t]) by congruence. subst ts'.
        split; [intros _; left; exact Mu|]. split; [|discriminate].
        intros _ x Lx. destruct (numbers_leaf t false _ x N' Lx) as (I&NB).
        split; [exists t; split; [now left|exact I]|]. intros [b ->]. exfalso. now apply (NB b).
  Qed.

  (** ** Whole tables *)
  Definition gross_ok (m : meta) (v : pv) : Prop :=
    (exists ts, m_types m = Some ts /\ In TFloat ts) /\ tag_of v = TagOther.

  Definition savable (md : dict meta) (k : string) (v : pv) (u : string) : Prop :=
    match dget k md with
    | None => is_gross k = false -> exists w j i, prepare W v = Ok w /\ dump W w = Ok j /\ interpret (tag_of v) (undump j) = Ok i
    | Some m => UnitsFit fu m u /\
        if is_gross k then gross_ok m v
        else exists ts v', m_types m = Some ts /\ returns W ts (m_multi m) v v'
    end /\ (is_gross k = true -> dget k md = None -> tag_of v = TagOther).

  (** What the reloaded table holds for an entry of the saved one. *)
  Definition reloaded (mg : string -> Qc) (md : dict meta) (k : string) (v : pv) (u : string) (o : option (pv * string)) : Prop :=
    match dget k md with
    | None => o = None
    | Some m =>
        if is_gross k then o = Some (PFloat (mg u), u)
        else exists ts v', m_types m = Some ts /\ returns W ts (m_multi m) v v' /\ o = Some (v', u)
    end.

  Lemma interpret_tag_other v : interpret TagOther v = Ok v.
  Proof. reflexivity. Qed.

  (** One entry, written and read. *)
  Lemma entry_step mg md c k v u : savable md k v u ->
    exists w t j, (if is_gross k then w = PFloat (mg u) else prepare W v = Ok w) /\ t = tag_of v /\
      dump W w = Ok j /\
      exists c', read_entry W fu md c {| e_name := k; e_value := j; e_units := u; e_tag := t |} = Ok c' /\
        match dget k md with
        | None => c' = c
        | Some m => exists v', c' = dset k (v', u) c /\ reloaded mg md k v u (Some (v', u))
        end.
  Proof.
    intros [S G]. destruct (is_gross k) eqn:EG.
    - exists (PFloat (mg u)), (tag_of v), (JFloat (mg u)). split; [reflexivity|]. split; [reflexivity|]. split; [reflexivity|].
      unfold read_entry. cbn [e_name e_value e_units e_tag undump].
      destruct (dget k md) as [m|] eqn:EM.
      + destruct S as (Hu&((ts&Ht&I)&Tg)). rewrite Tg. cbn [interpret rbind]. eexists. split; [reflexivity|].
        unfold dmem. rewrite EM. exists (PFloat (mg u)). split.
        * eapply (set_returned md c k (PFloat (mg u)) u m ts); eauto.
          -- apply (cast_conforming W m ts); [exact Ht|]. exists TFloat. split; [exact I|constructor].
          -- apply (scalar_conforms m ts); [exact Ht|reflexivity|]. split; [|intros [b [=]]].
             exists TFloat. split; [exact I|constructor].
        * unfold reloaded. now rewrite EM, EG.
      + rewrite (G eq_refl eq_refl). cbn [interpret rbind]. eexists. split; [reflexivity|].
        unfold dmem. now rewrite EM.
    - destruct (dget k md) as [m|] eqn:EM.
      + destruct S as (Hu&ts&v'&Ht&R). destruct (return_step m ts v v' Ht R) as (w&j&i&P&D&In&Ca&Co).
        exists w, (tag_of v), j. split; [exact P|]. split; [reflexivity|]. split; [exact D|].
        unfold read_entry. cbn [e_name e_value e_units e_tag]. rewrite In. cbn [rbind].
        eexists. split; [reflexivity|]. unfold dmem. rewrite EM.
        exists v'. split; [eapply (set_returned md c k v' u m ts); eauto|].
        unfold reloaded. rewrite EM, EG. eauto.
      + destruct (S eq_refl) as (w&j&i&P&D&In). exists w, (tag_of v), j.
        split; [exact P|]. split; [reflexivity|]. split; [exact D|].
        unfold read_entry. cbn [e_name e_value e_units e_tag]. rewrite In. cbn [rbind].
        eexists. split; [reflexivity|]. unfold dmem. now rewrite EM.
  Qed.

  Lemma map_res_app {A B} (f : A -> res B) l1 l2 r1 r2 :
    map_res f l1 = Ok r1 -> map_res f l2 = Ok r2 -> map_res f (l1 ++ l2) = Ok (r1 ++ r2).
  Proof.
    revert r1. induction l1 as [|x l1 IH]; intros r1 E1 E2; [injection E1 as <-; exact E2|].
    cbn in *. destruct (f x) as [y|]; [|discriminate]. cbn in *.
    destruct (map_res f l1) as [ys|]; [|discriminate]. cbn in *. injection E1 as <-.
    rewrite (IH ys eq_refl E2). reflexivity.
  Qed.

  Lemma read_app md c es1 es2 c1 : read_entries W fu md c es1 = Ok c1 ->
    read_entries W fu md c (es1 ++ es2) = read_entries W fu md c1 es2.
  Proof.
    revert c. induction es1 as [|e es1 IH]; intros c E; [injection E as <-; reflexivity|].
    cbn in *. destruct (read_entry W fu md c e) as [c'|]; [|discriminate]. cbn in *. now apply IH.
  Qed.

  Lemma table_trip mg md cs : NoDup (dkeys cs) ->
    (forall k v u, In (k, (v, u)) cs -> savable md k v u) ->
    exists es recs, fst (save_loop W mg cs) = Ok es /\ map_res (dump_entry W) es = Ok recs /\
    forall c0, (forall k, In k (dkeys cs) -> dget k c0 = None) ->
    exists c, read_entries W fu md c0 recs = Ok c /\
    (forall k v u, In (k, (v, u)) cs -> reloaded mg md k v u (dget k c)) /\
    (forall k, ~ In k (dkeys cs) -> dget k c = dget k c0).
  Proof.
    induction cs as [|[k [v u]] cs IH]; intros ND H.
    - exists [], []. split; [reflexivity|]. split; [reflexivity|]. intros c0 _. exists c0. split; [reflexivity|].
      split; [intros ? ? ? []|reflexivity].
    - cbn [dkeys map fst] in ND. inversion ND as [|? ? Nk ND']; subst.
      destruct (IH ND' (fun k v u I => H k v u (or_intror I))) as (es&recs&S&D&Rd).
      destruct (entry_step mg md [] k v u (H k v u (or_introl eq_refl))) as (w&t&j&P&Tg&Dw&_).
      exists ((k, (w, u, t)) :: es), ({| e_name := k; e_value := j; e_units := u; e_tag := t |} :: recs).
      split.
      { cbn [save_loop]. destruct (is_gross k); [subst w t; cbn [fst]; rewrite S; reflexivity|].
        rewrite P. cbn [fst]. rewrite S. subst t. reflexivity. }
      split.
      { cbn [map_res dump_entry]. rewrite Dw. cbn [rbind]. rewrite D. reflexivity. }
      intros c0 A.
      destruct (entry_step mg md c0 k v u (H k v u (or_introl eq_refl))) as (w'&t'&j'&P'&Tg'&Dw'&c'&Rc&Cc).
      assert (E : w' = w /\ t' = t) by (split; [destruct (is_gross k); congruence|congruence]). destruct E as [-> ->].
      assert (j' = j) by congruence. subst j'.
      cbn [read_entries]. rewrite Rc. cbn [rbind].
      destruct (Rd c') as (c&Rc'&Old&New).
      { intros k' I. destruct (dget k md) as [m|].
        - destruct Cc as (v'&->&_). rewrite dget_dset_other by (intros ->; contradiction).
          apply A. now right.
        - subst c'. apply A. now right. }
      exists c. split; [exact Rc'|]. split.
      + intros k' v1 u1 [I|I]; [|now apply Old]. injection I as <- <- <-.
        rewrite (New k Nk). unfold reloaded in *. destruct (dget k md) as [m|] eqn:EM.
        * destruct Cc as (v'&->&R). try rewrite EM in R. now rewrite dget_dset_same.
        * subst c'. apply A. now left.
      + intros k' N. cbn [dkeys map fst In] in N. rewrite New by tauto.
        destruct (dget k md) as [m|]; [|now subst c'].
        destruct Cc as (v'&->&_). apply dget_dset_other. intro. apply N. now left.
  Qed.

  Theorem round_trip mg dg md cs mD :
    NoDup (dkeys cs) -> (forall k v u, In (k, (v, u)) cs -> savable md k v u) ->
    dget DESIGN_GROSS md = Some mD -> (exists ts, m_types mD = Some ts /\ In TFloat ts) -> UnitsFit fu mD "lbm" ->
    exists recs c, fst (save_results W mg dg cs) = Ok recs /\ read_sizing W fu md recs = Ok c /\
    (forall k v u, In (k, (v, u)) cs -> reloaded mg md k v u (dget k c)) /\
    (~ In DESIGN_GROSS (dkeys cs) -> dget DESIGN_GROSS c = Some (PFloat dg, "lbm")) /\
    (forall k, ~ In k (dkeys cs) -> k <> DESIGN_GROSS -> dget k c = None).
  Proof.
    intros ND H ED (ts&Ht&It) Hu.
    destruct (table_trip mg md cs ND H) as (es&recs&S&D&Rd).
    destruct (Rd []) as (c&Rc&Old&New); [reflexivity|].
    unfold save_results. cbn [fst]. rewrite S. cbn [rbind].
    destruct (dmem DESIGN_GROSS cs) eqn:EM.
    - exists recs, c. split; [exact D|]. split; [exact Rc|]. split; [exact Old|].
      assert (I : In DESIGN_GROSS (dkeys cs)).
      { unfold dmem in EM. apply dget_Some_keys. destruct (dget DESIGN_GROSS cs); [eauto|discriminate]. }
      split; [contradiction|]. intros k N _. now rewrite New.
    - assert (NI : ~ In DESIGN_GROSS (dkeys cs)).
      { unfold dmem in EM. apply dget_None_keys. destruct (dget DESIGN_GROSS cs); [discriminate|reflexivity]. }
      set (e := {| e_name := DESIGN_GROSS; e_value := JFloat dg; e_units := "lbm"; e_tag := TagOther |}).
      exists (recs ++ [e]), (dset DESIGN_GROSS (PFloat dg, "lbm") c).
      split; [now apply map_res_app|]. split.
      { unfold read_sizing. rewrite (read_app md [] recs [e] c Rc). cbn [read_entries].
        unfold read_entry. cbn [e e_name e_value e_units e_tag undump interpret rbind].
        unfold dmem. rewrite ED.
        rewrite (set_returned md c DESIGN_GROSS (PFloat dg) "lbm" mD ts (PFloat dg) (PFloat dg)); auto.
        - apply (cast_conforming W mD ts); [exact Ht|]. exists TFloat. split; [exact It|constructor].
        - apply (scalar_conforms mD ts); [exact Ht|reflexivity|]. split; [|intros [b [=]]].
          exists TFloat. split; [exact It|constructor]. }
      split.
      { intros k v u I. rewrite dget_dset_other; [now apply Old|]. intros ->. apply NI.
        change DESIGN_GROSS with (fst (DESIGN_GROSS, (v, u))). now apply in_map. }
      split; [intros _; apply dget_dset_same|].
      intros k N Nd. rewrite dget_dset_other by congruence. now rewrite New.
  Qed.

  (** Names unknown to the metadata never appear. *)
  Lemma read_known md es : forall c0 c, read_entries W fu md c0 es = Ok c ->
    (forall k, In k (dkeys c0) -> In k (dkeys md)) -> forall k, In k (dkeys c) -> In k (dkeys md).
  Proof.
    induction es as [|e es IH]; intros c0 c E A; [injection E as <-; exact A|].
    cbn in E. destruct (read_entry W fu md c0 e) as [c1|] eqn:E1; [|discriminate]. cbn in E.
    apply (IH c1 c E). intros k I. unfold read_entry in E1.
    destruct (interpret (e_tag e) (undump (e_value e))) as [v|]; [|discriminate]. cbn in E1.
    destruct (dmem (e_name e) md) eqn:EM; [|injection E1 as <-; now apply A].
    injection E1 as <-. unfold dmem in EM. destruct (dget (e_name e) md) as [m|] eqn:EG; [|discriminate].
    unfold av_set_val in I. rewrite EG in I.
    destruct (cast_type W m v) as [v'|]; [|now apply A].
    destruct (check_type W m v') as [|]; [|now apply A].
    destruct (check_units_compat fu m (UStr (e_units e))) as [|]; [|now apply A].
    cbn in I. apply dkeys_dset_In in I. destruct I as [->|I]; [|now apply A].
    apply dget_Some_keys. eauto.
  Qed.

  (** The inputs afterwards. *)
  Lemma save_loop_left mg cs :
    Forall2 (fun a b => fst a = fst b /\ snd (snd a) = snd (snd b) /\
               (fst (snd b) = fst (snd a) \/
                is_gross (fst a) = false /\ exists l, fst (snd a) = PIter ListK l /\ prepare W (fst (snd a)) = Ok (fst (snd b))))
            cs (snd (save_loop W mg cs)).
  Proof.
    induction cs as [|[k [v u]] cs IH]; [constructor|]. cbn [save_loop].
    assert (Same : forall l : nv pv, Forall2 (fun a b => fst a = fst b /\ snd (snd a) = snd (snd b) /\
               (fst (snd b) = fst (snd a) \/
                is_gross (fst a) = false /\ exists l, fst (snd a) = PIter ListK l /\ prepare W (fst (snd a)) = Ok (fst (snd b)))) l l).
    { induction l as [|x l IHl]; constructor; auto. }
    destruct (is_gross k) eqn:G.
    - cbn [snd]. constructor; [|exact IH]. auto.
    - destruct (prepare W v) as [w|e] eqn:P; cbn [snd].
      + constructor; [|exact IH]. cbn [fst snd]. split; [reflexivity|]. split; [reflexivity|].
        unfold left_behind. destruct v as [| | | | | | |[] l]; auto. right. split; [exact G|]. exists l. auto.
      + constructor; auto.
  Qed.
End L.
