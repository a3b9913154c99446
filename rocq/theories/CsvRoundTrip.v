(** C08: the writer followed by the reader. *)
From Coq Require Import Ascii.
From Verif Require Import Base CsvModel CsvProofs.

(** ** Header cells *)
Definition noparen (c : ascii) : bool := negb (Ascii.eqb c "(" || Ascii.eqb c ")")%bool.
Definition nohash (c : ascii) : bool := negb (is_hash c).

Lemma inside_closes info rest : forallb noparen info = true -> next_closes (info ++ ")"%char :: rest) = true.
Proof.
  induction info as [|c info IH]; intros H; [reflexivity|]. simpl in H. apply andb_true_iff in H as [H1 H2].
  unfold noparen in H1. apply negb_true_iff, orb_false_iff in H1 as [Ho Hc]. simpl. rewrite Ho, Hc. auto.
Qed.
Lemma inside_keep info rest cur : forallb noparen info = true ->
  split_cells false cur (info ++ ")"%char :: rest) = split_cells false (rev info ++ cur) (")"%char :: rest).
Proof.
  revert cur. induction info as [|c info IH]; intros cur H; [reflexivity|].
  simpl in H. apply andb_true_iff in H as [H1 H2].
  change ((c :: info) ++ ")"%char :: rest) with (c :: (info ++ ")"%char :: rest)).
  cbn [split_cells andb]. rewrite (inside_closes info rest H2). cbn [negb]. rewrite andb_false_r.
  rewrite IH by assumption. simpl. now rewrite <- app_assoc.
Qed.

Definition labelled_text (n info : str) : str := n ++ lit " (" ++ info ++ lit ")".

Lemma labelled_safe n info : word n = true -> forallb noparen info = true -> forallb nohash info = true ->
  safe (labelled_text n info).
Proof.
  intros Hw Hi Hh. destruct (word_facts n Hw) as [Hn Hp]. destruct (plain_keep n Hp) as [K1 K2].
  pose proof (word_safe n Hw) as Sn. unfold labelled_text. constructor.
  - destruct n; [congruence|discriminate].
  - rewrite app_first by assumption. apply (safe_first _ Sn).
  - rewrite !app_assoc. rewrite rev_app_distr. reflexivity.
  - rewrite !forallb_app. rewrite (safe_hash _ Sn). cbn [andb]. unfold nohash in Hh. rewrite Hh. reflexivity.
  - intros rest cur Hr. rewrite <- !app_assoc, K1.
    change (lit " (" ++ info ++ lit ")" ++ rest) with (" "%char :: "("%char :: (info ++ ")"%char :: rest)).
    remember (info ++ ")"%char :: rest) as tl eqn:Et.
    cbn [split_cells andb]. change (is_delim " ") with false. change (is_delim "(") with false. cbn [andb].
    subst tl. rewrite inside_keep by assumption. cbn [split_cells andb]. change (is_delim ")") with false. cbn [andb].
    f_equal. rewrite !rev_app_distr. cbn [rev app]. rewrite <- !app_assoc. reflexivity.
  - intros rest Hr. rewrite <- !app_assoc, K2. reflexivity.
Qed.

Lemma split_on_app p a rest cur : forallb (fun c => negb (p c)) a = true ->
  split_on p cur (a ++ rest) = split_on p (rev a ++ cur) rest.
Proof.
  revert cur. induction a as [|c a IH]; intros cur H; [reflexivity|]. simpl in H.
  apply andb_true_iff in H as [H1 H2]. apply negb_true_iff in H1. simpl. rewrite H1, IH by assumption.
  now rewrite <- app_assoc.
Qed.

Lemma plain_open c : plain c = true -> negb (is_open_or_comma c) = true.
Proof.
  intros H. destruct (plain_facts c H) as (_ & Hd & _ & Ho & _). unfold is_open_or_comma. rewrite Ho. simpl.
  unfold is_delim in Hd. apply orb_false_iff in Hd as [Hd _]. now rewrite Hd.
Qed.
Lemma plain_close c : plain c = true -> negb (is_close_or_blank c) = true.
Proof.
  intros H. destruct (plain_facts c H) as (Hw & _ & _ & _ & Hc). unfold is_close_or_blank. rewrite Hc. simpl.
  destruct (Ascii.eqb c " ") eqn:E; [|reflexivity]. apply Ascii.eqb_eq in E. subst. discriminate.
Qed.
Lemma strip_word w a b : word w = true -> forallb is_close_or_blank a = true -> forallb is_close_or_blank b = true ->
  strip_of is_close_or_blank (a ++ w ++ b) = w.
Proof.
  intros Hw Ha Hb. destruct (word_facts w Hw) as [Hn Hp]. apply strip_all; auto.
  revert Hp. apply forallb_impl, plain_close.
Qed.
Lemma underscores_word w : forallb plain w = true -> underscores w = w.
Proof.
  unfold underscores. induction w as [|c w IH]; intros H; [reflexivity|]. simpl in *. apply andb_true_iff in H as [H1 H2].
  rewrite (proj1 (plain_facts c H1)), (IH H2). reflexivity.
Qed.

Lemma items_bare n : word n = true ->
  map (strip_of is_close_or_blank) (split_on is_open_or_comma [] n) = [n].
Proof.
  intros Hw. destruct (word_facts n Hw) as [Hn Hp].
  rewrite <- (app_nil_r n) at 1. rewrite split_on_app.
  - cbn [split_on map]. rewrite app_nil_r, rev_involutive. f_equal.
    rewrite <- (app_nil_r n) at 1. now apply (strip_word n [] []).
  - revert Hp. apply forallb_impl, plain_open.
Qed.
Lemma items_one n u : word n = true -> word u = true ->
  map (strip_of is_close_or_blank) (split_on is_open_or_comma [] (labelled_text n u)) = [n; u].
Proof.
  intros Hw Hu. destruct (word_facts n Hw) as [Hn Hp]. destruct (word_facts u Hu) as [Hun Hup]. unfold labelled_text.
  rewrite split_on_app by (revert Hp; apply forallb_impl, plain_open).
  rewrite app_nil_r.
  change (lit " (" ++ u ++ lit ")") with (" "%char :: "("%char :: (u ++ lit ")")).
  remember (u ++ lit ")") as tl eqn:Et. cbn [split_on].
  change (is_open_or_comma " ") with false. change (is_open_or_comma "(") with true. cbv iota. subst tl.
  rewrite split_on_app by (revert Hup; apply forallb_impl, plain_open). rewrite app_nil_r.
  cbn [split_on lit list_ascii_of_string]. change (is_open_or_comma ")") with false. cbv iota.
  cbn [map rev]. rewrite !rev_involutive. f_equal.
  - apply (strip_word n []); auto.
  - f_equal. apply (strip_word u []); auto.
Qed.
Lemma items_two n u w : word n = true -> word u = true -> word w = true ->
  map (strip_of is_close_or_blank) (split_on is_open_or_comma [] (labelled_text n ((u ++ lit ", ") ++ w))) = [n; u; w].
Proof.
  intros Hw Hu Hx. destruct (word_facts n Hw) as [Hn Hp]. destruct (word_facts u Hu) as [Hun Hup].
  destruct (word_facts w Hx) as [Hwn Hwp]. unfold labelled_text.
  rewrite split_on_app by (revert Hp; apply forallb_impl, plain_open).
  rewrite app_nil_r, <- !app_assoc.
  change (lit " (" ++ u ++ lit ", " ++ w ++ lit ")") with (" "%char :: "("%char :: (u ++ ","%char :: " "%char :: (w ++ lit ")"))).
  remember (u ++ ","%char :: " "%char :: (w ++ lit ")")) as tl eqn:Et. cbn [split_on].
  change (is_open_or_comma " ") with false. change (is_open_or_comma "(") with true. cbv iota. subst tl.
  rewrite split_on_app by (revert Hup; apply forallb_impl, plain_open). rewrite app_nil_r.
  remember (w ++ lit ")") as tl eqn:Et. cbn [split_on].
  change (is_open_or_comma " ") with false. change (is_open_or_comma ",") with true. cbv iota. subst tl.
  rewrite split_on_app by (revert Hwp; apply forallb_impl, plain_open).
  cbn [split_on lit list_ascii_of_string]. change (is_open_or_comma ")") with false. cbv iota.
  cbn [map rev]. rewrite !rev_involutive, rev_app_distr, rev_involutive. f_equal.
  - apply (strip_word n []); auto.
  - f_equal.
    + rewrite <- (app_nil_r u) at 1. apply (strip_word u [] []); auto.
    + f_equal. cbn [rev app]. try rewrite <- app_assoc. apply (strip_word w [" "%char] [")"%char]); auto.
Qed.

Section W.
  Variable num : Type.
  Variable show : num -> str.
  Variable fl : str -> option num.
  Variable valid_units : str -> bool.
  Variable is_compat : str -> str -> bool.
  (** What is assumed of Python's number printing and parsing: the printed text has no character that
      matters to the file format, it parses back to the number, and a text with '(' is not a number. *)
  Hypothesis show_word : forall x, word (show x) = true.
  Hypothesis show_back : forall x, fl (show x) = Some x.
  Hypothesis fl_noparen : forall s x, fl s = Some x -> ~ In "("%char s.

  Notation header_cell := (header_cell valid_units is_compat).

  (** A table entry the format can carry. *)
  Record good_entry (md : metadata) (al : aliases) (e : str * (str * list num)) : Prop := {
    ge_name : word (fst e) = true;
    ge_kw : ~ In (fst e) [lit "input"; lit "output"];
    ge_alias : resolve (prep_aliases al) (fst e) = fst e;
    ge_units : word (fst (snd e)) = true;
    ge_ukw : ~ In (fst (snd e)) [lit "input"; lit "output"];
    ge_valid : fst (snd e) <> lit "unitless" -> valid_units (fst (snd e)) = true;
    ge_md : match md with
            | None => True
            | Some d => exists du, aget (fst e) d = Some du /\
                                   (fst (snd e) = lit "unitless" -> du = lit "unitless") /\
                                   (fst (snd e) <> lit "unitless" -> is_compat (fst (snd e)) du = true)
            end
  }.

  Definition label_of (outs : option (list str)) (n : str) : label :=
    match outs with None => LNone | Some os => if mem_str n os then LOutput else LInput end.

  Lemma header_text_cases outs n u :
    header_text outs n u =
      match (str_eqb u (lit "unitless") || str_eqb u [])%bool, outs with
      | true, None => n
      | true, Some os => labelled_text n (if mem_str n os then lit "output" else lit "input")
      | false, None => labelled_text n u
      | false, Some os => labelled_text n ((u ++ lit ", ") ++ (if mem_str n os then lit "output" else lit "input"))
      end.
  Proof.
    unfold header_text, labelled_text.
    destruct (str_eqb u (lit "unitless")) eqn:E; cbn [orb].
    - destruct outs as [os|]; [|reflexivity]. destruct (mem_str n os); reflexivity.
    - destruct u as [|c u]; [|].
      + destruct outs as [os|]; [|reflexivity]. destruct (mem_str n os); reflexivity.
      + destruct outs as [os|]; reflexivity.
  Qed.

  Lemma lit_facts : word (lit "input") = true /\ word (lit "output") = true /\
    mem_str (lit "output") [lit "input"] = false /\ str_eqb (lit "input") (lit "output") = false /\
    str_eqb (lit "output") (lit "input") = false /\ word (lit "unitless") = true.
  Proof. repeat split. Qed.

  Lemma header_text_back md al outs e : good_entry md al e ->
    header_cell md al (header_text outs (fst e) (fst (snd e)))
    = Ok (Some (fst e, fst (snd e), label_of outs (fst e))).
  Proof.
    intros [Hn Hkw Hal Hu Hukw Hval Hmd]. destruct e as [n [u col]]. cbn [fst snd] in *.
    destruct (word_facts n Hn) as [Hnn Hnp]. destruct (word_facts u Hu) as [Hun Hup].
    assert (Kn : n <> lit "input" /\ n <> lit "output") by (split; intros ->; apply Hkw; simpl; auto).
    assert (Ku : u <> lit "input" /\ u <> lit "output") by (split; intros ->; apply Hukw; simpl; auto).
    destruct Kn as [Kn1 Kn2], Ku as [Ku1 Ku2].
    assert (Ei : forall x y, x <> y -> str_eqb x y = false) by (intros; now apply str_eqb_neq).
    assert (Eu : str_eqb u [] = false) by now apply str_eqb_neq.
    rewrite header_text_cases, Eu, orb_false_r. unfold CsvModel.header_cell.
    assert (En : resolve (prep_aliases al) (underscores n) = n) by (rewrite underscores_word by assumption; exact Hal).
    assert (Mnu : mem_str (lit "input") [n; u] = false /\ mem_str (lit "output") [n; u] = false).
    { unfold mem_str. simpl. rewrite !Ei; auto. }
    destruct Mnu as [M1 M2].
    destruct (str_eqb u (lit "unitless")) eqn:Eul.
    - apply str_eqb_eq in Eul. subst u. destruct outs as [os|].
      + (* n (input) *)
        assert (Hlab : exists w, (w = lit "input" \/ w = lit "output") /\ (if mem_str n os then lit "output" else lit "input") = w)
          by (destruct (mem_str n os); eauto).
        cbn [label_of]. destruct (mem_str n os).
        * rewrite items_one by (try assumption; reflexivity). cbn [hd]. rewrite En.
          assert (A1 : mem_str (lit "input") [n; lit "output"] = false).
          { unfold mem_str. cbn [existsb]. rewrite (Ei (lit "input") n) by auto. reflexivity. }
          assert (A2 : mem_str (lit "output") [n; lit "output"] = true).
          { unfold mem_str. cbn [existsb]. rewrite str_eqb_refl, orb_true_r. reflexivity. }
          assert (A3 : pop_first (lit "output") [n; lit "output"] = [n]).
          { cbn [pop_first]. rewrite (Ei (lit "output") n) by auto. now rewrite str_eqb_refl. }
          cbn [length Nat.ltb Nat.leb]. rewrite A1, A2, A3. cbn [length Nat.ltb Nat.leb].
          destruct md as [d|]; [|reflexivity]. destruct Hmd as (du & -> & Hdu & _). now rewrite Hdu.
        * rewrite items_one by (try assumption; reflexivity). cbn [hd]. rewrite En.
          assert (A1 : mem_str (lit "input") [n; lit "input"] = true).
          { unfold mem_str. cbn [existsb]. rewrite str_eqb_refl, orb_true_r. reflexivity. }
          assert (A2 : mem_str (lit "output") [n; lit "input"] = false).
          { unfold mem_str. cbn [existsb]. rewrite (Ei (lit "output") n) by auto. reflexivity. }
          assert (A3 : pop_first (lit "input") [n; lit "input"] = [n]).
          { cbn [pop_first]. rewrite (Ei (lit "input") n) by auto. now rewrite str_eqb_refl. }
          cbn [length Nat.ltb Nat.leb]. rewrite A1, A2, A3. cbn [length Nat.ltb Nat.leb].
          destruct md as [d|]; [|reflexivity]. destruct Hmd as (du & -> & Hdu & _). now rewrite Hdu.
      + (* n *)
        rewrite items_bare by assumption. cbn [hd length Nat.ltb Nat.leb label_of]. rewrite En.
        destruct md as [d|]; [|reflexivity]. destruct Hmd as (du & -> & Hdu & _). now rewrite Hdu.
    - apply str_eqb_neq in Eul. specialize (Hval Eul).
      assert (Fin : forall l : label, (match md with
                     | Some d => match aget n d with
                        | None => Ok None
                        | Some default_units => if is_compat u default_units then Ok (Some (n, u, l)) else Err ValueError
                        end
                     | None => Ok (Some (n, u, l)) end) = Ok (Some (n, u, l))).
      { intros l. destruct md as [d|]; [|reflexivity]. destruct Hmd as (du & -> & _ & Hc). now rewrite Hc. }
      destruct outs as [os|].
      + cbn [label_of]. destruct (mem_str n os).
        * rewrite items_two by (try assumption; reflexivity). cbn [hd]. rewrite En.
          assert (A1 : mem_str (lit "input") [n; u; lit "output"] = false).
          { unfold mem_str. cbn [existsb]. rewrite (Ei (lit "input") n), (Ei (lit "input") u) by auto. reflexivity. }
          assert (A2 : mem_str (lit "output") [n; u; lit "output"] = true).
          { unfold mem_str. cbn [existsb]. rewrite str_eqb_refl, !orb_true_r. reflexivity. }
          assert (A3 : pop_first (lit "output") [n; u; lit "output"] = [n; u]).
          { cbn [pop_first]. rewrite (Ei (lit "output") n), (Ei (lit "output") u) by auto. now rewrite str_eqb_refl. }
          cbn [length Nat.ltb Nat.leb]. rewrite A1, A2, A3. cbn [length Nat.ltb Nat.leb nth last]. rewrite Hval.
          specialize (Fin LOutput). destruct md as [d|]; [|exact Fin]. destruct (aget n d); exact Fin.
        * rewrite items_two by (try assumption; reflexivity). cbn [hd]. rewrite En.
          assert (A1 : mem_str (lit "input") [n; u; lit "input"] = true).
          { unfold mem_str. cbn [existsb]. rewrite str_eqb_refl, !orb_true_r. reflexivity. }
          assert (A2 : mem_str (lit "output") [n; u; lit "input"] = false).
          { unfold mem_str. cbn [existsb]. rewrite (Ei (lit "output") n), (Ei (lit "output") u) by auto. reflexivity. }
          assert (A3 : pop_first (lit "input") [n; u; lit "input"] = [n; u]).
          { cbn [pop_first]. rewrite (Ei (lit "input") n), (Ei (lit "input") u) by auto. now rewrite str_eqb_refl. }
          cbn [length Nat.ltb Nat.leb]. rewrite A1, A2, A3. cbn [length Nat.ltb Nat.leb nth last]. rewrite Hval.
          specialize (Fin LInput). destruct md as [d|]; [|exact Fin]. destruct (aget n d); exact Fin.
      + rewrite items_one by assumption. cbn [hd label_of]. rewrite En.
        cbn [length Nat.ltb Nat.leb]. rewrite M1, M2. cbn [length Nat.ltb Nat.leb nth last]. rewrite Hval.
        specialize (Fin LNone). destruct md as [d|]; [|exact Fin]. destruct (aget n d); exact Fin.
  Qed.

  Lemma word_noparen w : word w = true -> forallb noparen w = true.
  Proof.
    intros H. destruct (word_facts w H) as [_ Hp]. revert Hp. apply forallb_impl. intros c Hc.
    destruct (plain_facts c Hc) as (_ & _ & _ & Ho & Hcl). unfold noparen. now rewrite Ho, Hcl.
  Qed.
  Lemma word_nohash w : word w = true -> forallb nohash w = true.
  Proof. intros H. apply (safe_hash _ (word_safe w H)). Qed.

  Lemma header_text_safe outs n u : word n = true -> word u = true -> safe (header_text outs n u).
  Proof.
    intros Hn Hu. rewrite header_text_cases.
    assert (Hio : forall b : bool, word (if b then lit "output" else lit "input") = true) by (intros []; reflexivity).
    destruct (str_eqb u (lit "unitless") || str_eqb u [])%bool; destruct outs as [os|].
    - apply labelled_safe; [assumption|now apply word_noparen|now apply word_nohash].
    - now apply word_safe.
    - apply labelled_safe; [assumption| |].
      + rewrite !forallb_app, (word_noparen u Hu). destruct (mem_str n os); reflexivity.
      + rewrite !forallb_app, (word_nohash u Hu). destruct (mem_str n os); reflexivity.
    - apply labelled_safe; [assumption|now apply word_noparen|now apply word_nohash].
  Qed.

  Lemma header_text_fl outs n u : fl n = None -> fl (header_text outs n u) = None.
  Proof.
    intros Hn. rewrite header_text_cases.
    assert (Hl : forall i, fl (labelled_text n i) = None).
    { intros i. destruct (fl (labelled_text n i)) eqn:E; [|reflexivity]. exfalso. apply (fl_noparen _ _ E).
      unfold labelled_text. apply in_or_app. right. simpl. auto. }
    destruct (str_eqb u (lit "unitless") || str_eqb u [])%bool; destruct outs; auto.
  Qed.

  Lemma to_floats_none cs : (exists c, In c cs /\ c <> [] /\ fl c = None) -> to_floats num fl cs = None.
  Proof.
    intros (c & Hin & Hn & Hf). induction cs as [|d cs IH]; [destruct Hin|]. destruct Hin as [->|Hin].
    - simpl. destruct c; [congruence|]. now rewrite Hf.
    - destruct d as [|a d]; cbn [to_floats]; rewrite (IH Hin); [reflexivity|]. destruct (fl (a :: d)); reflexivity.
  Qed.

  (** ** Comments *)
  Definition clean_comment (c : str) : list str :=
    match c with [] => [] | x :: r => [strip (if is_hash x then r else c)] end.

  Lemma drop_while_idem p l : drop_while p (drop_while p l) = drop_while p l.
  Proof. induction l as [|c l IH]; simpl; [reflexivity|]. destruct (p c) eqn:E; [assumption|]. simpl. now rewrite E. Qed.
  Lemma first_drop p l : first_ok p (drop_while p l) = true.
  Proof. induction l as [|c l IH]; simpl; [reflexivity|]. destruct (p c) eqn:E; [assumption|]. simpl. now rewrite E. Qed.
  Lemma drop_while_suffix p l : exists a, l = a ++ drop_while p l /\ forallb p a = true.
  Proof.
    induction l as [|c l (a & E & H)]; simpl.
    - exists []; auto.
    - destruct (p c) eqn:Ep; [|exists []; auto]. exists (c :: a). simpl. rewrite Ep, H, <- E. auto.
  Qed.
  Lemma strip_first l : first_ok is_ws (strip l) = true /\ first_ok is_ws (rev (strip l)) = true.
  Proof.
    unfold strip, strip_of. rewrite rev_involutive. split; [|apply first_drop].
    pose proof (first_drop is_ws l) as Hf. set (m := drop_while is_ws l) in *.
    destruct (drop_while_suffix is_ws (rev m)) as (a & E & H).
    assert (Em : m = rev (drop_while is_ws (rev m)) ++ rev a).
    { rewrite <- rev_app_distr, <- E, rev_involutive. reflexivity. }
    destruct (rev (drop_while is_ws (rev m))) as [|c r] eqn:Er; [reflexivity|]. rewrite Em in Hf. exact Hf.
  Qed.
  Lemma strip_pre a l : forallb is_ws a = true -> strip (a ++ strip l) = strip l.
  Proof.
    intros Ha. destruct (strip_first l) as [H1 H2]. unfold strip at 1. destruct (strip l) as [|c r] eqn:E.
    - rewrite app_nil_r. unfold strip_of. 
      assert (D : drop_while is_ws a = []).
      { rewrite <- (app_nil_r a), drop_while_app by assumption. reflexivity. }
      now rewrite D.
    - rewrite <- (app_nil_r (c :: r)) at 1. apply strip_core; auto. discriminate.
  Qed.
  Lemma comment_back c : blank (write_comment c) /\ comment_of (write_comment c) = clean_comment c.
  Proof.
    unfold blank, comment_of. destruct c as [|x r]; [split; reflexivity|]. unfold write_comment, clean_comment.
    destruct (is_hash x) eqn:E.
    - cbn [cut_hash]. rewrite E. split; reflexivity.
    - change (lit "# " ++ strip (x :: r)) with ("#"%char :: (" "%char :: strip (x :: r))).
      cbn [cut_hash]. change (is_hash "#") with true. cbn [fst snd]. split; [reflexivity|].
      f_equal. now apply (strip_pre [" "%char]).
  Qed.
  Lemma comments_back cs : Forall blank (map write_comment cs) /\
    flat_map comment_of (map write_comment cs) = flat_map clean_comment cs.
  Proof.
    induction cs as [|c cs [I1 I2]]; [split; constructor|]. destruct (comment_back c) as [B1 B2]. split.
    - constructor; assumption.
    - cbn [map flat_map]. now rewrite B2, I2.
  Qed.

  (** ** The file as a list of padded cells *)
  Lemma column_shape outs b e : exists w,
    column num show outs b e = (padded (w - length (header_text outs (fst e) (fst (snd e))), header_text outs (fst e) (fst (snd e))),
                       map (fun x => padded (w - length (show x), show x)) (snd (snd e))).
  Proof.
    destruct e as [n [u col]]. unfold column. eexists. unfold pad, padded. cbn [fst snd]. rewrite map_map. reflexivity.
  Qed.
  Lemma columns_shape outs t : exists ws, length ws = length t /\
    columns num show outs t =
      map (fun p => match p with (w, e) =>
             (padded (w - length (header_text outs (fst e) (fst (snd e))), header_text outs (fst e) (fst (snd e))),
              map (fun x => padded (w - length (show x), show x)) (snd (snd e))) end) (combine ws t).
  Proof.
    assert (H : forall t, exists ws, length ws = length t /\
      map (column num show outs false) t = map (fun p => match p with (w, e) =>
             (padded (w - length (header_text outs (fst e) (fst (snd e))), header_text outs (fst e) (fst (snd e))),
              map (fun x => padded (w - length (show x), show x)) (snd (snd e))) end) (combine ws t)).
    { induction t0 as [|e t0 (ws & L & E)]; [exists []; split; reflexivity|].
      destruct (column_shape outs false e) as (w & Ew). exists (w :: ws). cbn [length map combine]. split; [congruence|].
      now rewrite Ew, E. }
    destruct t as [|e t]; [exists []; split; reflexivity|].
    destruct (H t) as (ws & L & E). destruct (column_shape outs true e) as (w & Ew).
    exists (w :: ws). cbn [length map combine columns]. split; [congruence|]. now rewrite Ew, E.
  Qed.

  Definition ins_of (outs : option (list str)) (t : table num) : list str :=
    match outs with None => [] | Some os => filter (fun n => negb (mem_str n os)) (map fst t) end.
  Definition outs_of (outs : option (list str)) (t : table num) : list str :=
    match outs with None => [] | Some os => filter (fun n => mem_str n os) (map fst t) end.

  Lemma numbered_some {X} (xs : list X) i : numbered i (map Some xs) = combine (seq i (length xs)) xs.
  Proof. revert i. induction xs as [|x xs IH]; intros i; [reflexivity|]. simpl. now rewrite IH. Qed.

  Definition hdr outs (e : str * (str * list num)) : str * str * label := (fst e, fst (snd e), label_of outs (fst e)).

  Lemma names_back outs (t : table num) i :
    map entry_name (numbered i (map Some (map (hdr outs) t))) = map fst t /\
    map entry_name (filter (labelled LInput) (numbered i (map Some (map (hdr outs) t)))) = ins_of outs t /\
    map entry_name (filter (labelled LOutput) (numbered i (map Some (map (hdr outs) t)))) = outs_of outs t.
  Proof.
    revert i. induction t as [|[n [u col]] t IH]; intros i.
    - destruct outs; repeat split.
    - destruct (IH (S i)) as (I1 & I2 & I3). cbn [map numbered].
      set (l := numbered (S i) (map Some (map (hdr outs) t))) in *. clearbody l.
      unfold ins_of, outs_of in *. unfold hdr, label_of. destruct outs as [os|]; cbn [fst snd filter map].
      + destruct (mem_str n os) eqn:E; cbn [labelled snd fst map filter negb]; rewrite I1, I2, I3; repeat split.
      + cbn [labelled snd fst map filter]. rewrite I1, I2, I3. repeat split.
  Qed.

  Lemma nth_map_seq {X Y} (f : X -> Y) (l : list X) (d : Y) : map (fun i => nth i (map f l) d) (seq 0 (length l)) = map f l.
  Proof.
    induction l as [|x l IH]; [reflexivity|]. simpl. f_equal. rewrite <- seq_shift, map_map. exact IH.
  Qed.

  Lemma write_read md al outs comments t :
    t <> [] -> Forall (good_entry md al) t -> NoDup (map fst t) ->
    (exists e, In e t /\ fl (fst e) = None) ->
    (exists k, k > 0 /\ Forall (fun e => length (snd (snd e)) = k) t) ->
    exists ls, write_data_file num show outs comments t = Ok ls /\
      read_data_file num fl valid_units is_compat md al ls
      = Ok (t, ins_of outs t, outs_of outs t, flat_map clean_comment comments).
  Proof.
    intros Hne Hgood ND Hnum (k & Hk & Hlen).
    destruct t as [|e0 t0]; [congruence|]. set (t := e0 :: t0) in *.
    assert (Hk0 : length (snd (snd e0)) = k) by (inversion Hlen; assumption).
    unfold write_data_file. destruct e0 as [n0 [u0 c0]] eqn:Ee0. fold t. cbn [snd fst] in Hk0.
    assert (X1 : existsb (fun e => Nat.eqb (length (snd (snd e))) 0) t = false).
    { destruct (existsb _ t) eqn:E; [|reflexivity]. apply existsb_exists in E as (e & Hin & E).
      rewrite Forall_forall in Hlen. rewrite (Hlen e Hin) in E. apply Nat.eqb_eq in E. lia. }
    assert (X2 : forallb (fun e => Nat.eqb (length (snd (snd e))) (length c0)) t = true).
    { apply forallb_forall. intros e Hin. rewrite Forall_forall in Hlen. rewrite (Hlen e Hin), Hk0. apply Nat.eqb_refl. }
    change (match t with [] => _ | _ => _ end) with (match t with [] => Err (A := list str) ValueError | _ => Ok [] end) || idtac.
    unfold t at 1. cbv iota beta. rewrite X1, X2. eexists. split; [reflexivity|].
    destruct (columns_shape outs t) as (ws & Lw & Ec). rewrite Ec.
    set (hx := fun p : nat * (str * (str * list num)) =>
                 match p with (w, e) => (w - length (header_text outs (fst e) (fst (snd e))), header_text outs (fst e) (fst (snd e))) end).
    assert (Esnd : map snd (combine ws t) = t).
    { clear -Lw. revert ws Lw. induction t as [|e t IH]; intros [|w ws] L; simpl in *; try discriminate; [reflexivity|].
      f_equal. apply IH. congruence. }
    assert (Hh1 : map fst (map (fun p : nat * (str * (str * list num)) => match p with (w, e) =>
             (padded (w - length (header_text outs (fst e) (fst (snd e))), header_text outs (fst e) (fst (snd e))),
              map (fun x => padded (w - length (show x), show x)) (snd (snd e))) end) (combine ws t))
            = map padded (map hx (combine ws t))).
    { rewrite !map_map. apply map_ext. intros [w e]. reflexivity. }
    rewrite Hh1.
    assert (Hsafe : Forall (fun x => safe (snd x)) (map hx (combine ws t))).
    { apply Forall_forall. intros x Hx. apply in_map_iff in Hx as ([w e] & <- & Hp). cbn [hx snd].
      assert (Hin : In e t) by (rewrite <- Esnd; apply in_map_iff; exists (w, e); auto).
      rewrite Forall_forall in Hgood. destruct (Hgood e Hin). now apply header_text_safe. }
    assert (Hsnd : map snd (map hx (combine ws t)) = map (fun e => header_text outs (fst e) (fst (snd e))) t).
    { rewrite <- Esnd at 2. rewrite !map_map. apply map_ext. intros [w e]. reflexivity. }
    (* header line *)
    assert (Hcells : forall xs, Forall (fun x => safe (snd x)) xs -> xs <> [] ->
              cells (fst (cut_hash (join (lit ", ") (map padded xs)))) = map snd xs /\
              comment_of (join (lit ", ") (map padded xs)) = []).
    { intros xs Hs Hx. destruct xs as [|x xs]; [congruence|]. inversion Hs; subst.
      destruct (cells_joined x xs) as [J1 J2]; auto. unfold comment_of. rewrite J2. cbn [fst snd]. auto. }
    assert (Hxne : map hx (combine ws t) <> []).
    { intros E. apply map_eq_nil in E. rewrite E in Esnd. unfold t in Esnd. discriminate. }
    destruct (Hcells _ Hsafe Hxne) as [HC1 HC2]. rewrite Hsnd in HC1.
    (* rows *)
    destruct c0 as [|x0 c0']; [simpl in Hk0; lia|]. set (c0 := x0 :: c0') in *.
    set (rowf := fun i => map (fun e : str * (str * list num) => nth i (snd (snd e)) x0) t).
    assert (Hrows : forall i, i < k ->
              full_row num fl (length t) (join (lit ", ") (text_row (map (fun p : nat * (str * (str * list num)) => match p with (w, e) =>
             (padded (w - length (header_text outs (fst e) (fst (snd e))), header_text outs (fst e) (fst (snd e))),
              map (fun x => padded (w - length (show x), show x)) (snd (snd e))) end) (combine ws t)) i)) (rowf i)
              /\ comment_of (join (lit ", ") (text_row (map (fun p : nat * (str * (str * list num)) => match p with (w, e) =>
             (padded (w - length (header_text outs (fst e) (fst (snd e))), header_text outs (fst e) (fst (snd e))),
              map (fun x => padded (w - length (show x), show x)) (snd (snd e))) end) (combine ws t)) i)) = []).
    { intros i Hi.
      set (rx := fun p : nat * (str * (str * list num)) => match p with (w, e) =>
                   (w - length (show (nth i (snd (snd e)) x0)), show (nth i (snd (snd e)) x0)) end).
      assert (Er : text_row (map (fun p : nat * (str * (str * list num)) => match p with (w, e) =>
             (padded (w - length (header_text outs (fst e) (fst (snd e))), header_text outs (fst e) (fst (snd e))),
              map (fun x => padded (w - length (show x), show x)) (snd (snd e))) end) (combine ws t)) i
             = map padded (map rx (combine ws t))).
      { unfold text_row. rewrite !map_map. apply map_ext_in. intros [w e] Hp. cbn [snd rx].
        assert (Hin : In e t) by (rewrite <- Esnd; apply in_map_iff; exists (w, e); auto).
        rewrite Forall_forall in Hlen. specialize (Hlen e Hin).
        rewrite (nth_indep _ [] (padded (w - length (show x0), show x0))) by (rewrite map_length; lia).
        rewrite (map_nth (fun x => padded (w - length (show x), show x))). reflexivity. }
      rewrite Er.
      assert (Hs : Forall (fun x => safe (snd x)) (map rx (combine ws t))).
      { apply Forall_forall. intros x Hx. apply in_map_iff in Hx as ([w e] & <- & Hp). cbn [rx snd]. apply word_safe, show_word. }
      destruct (Hcells _ Hs) as [D1 D2].
      { intros E. apply map_eq_nil in E. rewrite E in Esnd. unfold t in Esnd. discriminate. }
      split; [|exact D2]. unfold full_row. rewrite D1.
      assert (Es : map snd (map rx (combine ws t)) = map show (rowf i)).
      { unfold rowf. rewrite <- Esnd at 2. rewrite !map_map. apply map_ext. intros [w e]. reflexivity. }
      rewrite Es. split; [unfold rowf; now rewrite map_length|]. split.
      - apply Forall_forall. intros s Hsx. apply in_map_iff in Hsx as (x & <- & _). apply (proj1 (word_facts _ (show_word x))).
      - rewrite map_map. apply map_ext. intros x. apply show_back. }
    (* assemble *)
    destruct (comments_back comments) as [CB1 CB2].
    assert (Hparse : Forall2 (fun c o => header_cell md al c = Ok o) (map (fun e => header_text outs (fst e) (fst (snd e))) t)
              (map Some (map (hdr outs) t))).
    { rewrite map_map. clear -Hgood. induction Hgood as [|e t He Ht IH]; constructor; [|exact IH]. apply header_text_back. exact He. }
    destruct (names_back outs t 0) as (N1 & N2 & N3).
    set (lines := map (fun i => join (lit ", ") (text_row (map (fun p : nat * (str * (str * list num)) => match p with (w, e) =>
             (padded (w - length (header_text outs (fst e) (fst (snd e))), header_text outs (fst e) (fst (snd e))),
              map (fun x => padded (w - length (show x), show x)) (snd (snd e))) end) (combine ws t)) i)) (seq 0 (length c0))).
    assert (Hbody : Forall2 (body_line num fl (length (map (fun e => header_text outs (fst e) (fst (snd e))) t))) lines (map Some (map rowf (seq 0 (length c0))))
                    /\ flat_map comment_of lines = []).
    { rewrite map_length. unfold lines. rewrite Hk0.
      assert (Hsub : forall l, (forall i, In i l -> i < k) ->
        Forall2 (body_line num fl (length t)) (map (fun i => join (lit ", ") (text_row (map (fun p : nat * (str * (str * list num)) => match p with (w, e) =>
             (padded (w - length (header_text outs (fst e) (fst (snd e))), header_text outs (fst e) (fst (snd e))),
              map (fun x => padded (w - length (show x), show x)) (snd (snd e))) end) (combine ws t)) i)) l) (map Some (map rowf l)) /\
        flat_map comment_of (map (fun i => join (lit ", ") (text_row (map (fun p : nat * (str * (str * list num)) => match p with (w, e) =>
             (padded (w - length (header_text outs (fst e) (fst (snd e))), header_text outs (fst e) (fst (snd e))),
              map (fun x => padded (w - length (show x), show x)) (snd (snd e))) end) (combine ws t)) i)) l) = []).
      { induction l as [|i l IH]; intros Hl; [split; constructor|]. destruct (Hrows i) as [R1 R2]; [apply Hl; left; reflexivity|].
        destruct IH as [I1 I2]; [intros j Hj; apply Hl; right; assumption|].
        cbn [map flat_map]. rewrite R2, I2. split; [|reflexivity]. constructor; assumption. }
      apply Hsub. intros i Hi. apply in_seq in Hi. lia. }
    destruct Hbody as [HB1 HB2].
    destruct (read_whole num fl valid_units is_compat md al
                (match comments with [] => [] | _ => map write_comment comments ++ [[]] end)
                (join (lit ", ") (map padded (map hx (combine ws t)))) lines
                _ _ _
                ltac:(destruct comments; [constructor|apply Forall_app; split; [exact CB1|constructor; [reflexivity|constructor]]])
                HC1
                ltac:(apply to_floats_none; destruct Hnum as (e & Hin & Hf); exists (header_text outs (fst e) (fst (snd e)));
                      rewrite Forall_forall in Hgood; destruct (Hgood e Hin);
                      split; [apply in_map_iff; exists e; auto|split; [apply safe_ne; now apply header_text_safe|now apply header_text_fl]])
                Hparse
                ltac:(rewrite numbered_some; unfold t; discriminate)
                ltac:(rewrite N1; exact ND)
                HB1) as (t' & ER & FC).
    cbn [app] in *. rewrite ER, N2, N3. rewrite flat_map_app. cbn [flat_map]. rewrite HC2, HB2, app_nil_r.
    assert (Hcomm : flat_map comment_of (match comments with [] => [] | _ => map write_comment comments ++ [[]] end) = flat_map clean_comment comments).
    { destruct comments as [|c cs]; [reflexivity|]. rewrite flat_map_app, CB2. cbn. now rewrite app_nil_r. }
    rewrite Hcomm. do 4 f_equal.
    (* the columns *)
    assert (Ecat : forall (Y : Type) (l : list Y), catopt (map Some l) = l).
    { intros Y l. induction l; simpl; congruence. }
    rewrite Ecat in FC. rewrite numbered_some in FC.
    remember (map rowf (seq 0 (length c0))) as rows eqn:Erows.
    assert (G : forall (a b : list (str * (str * list num))) t', t = a ++ b ->
       Forall2 (is_column num rows) (combine (seq (length a) (length (map (hdr outs) b))) (map (hdr outs) b)) t' -> t' = b).
    { intros a b. revert a. induction b as [|e b IH]; intros a t1 Et F; simpl in F.
      - inversion F; reflexivity.
      - inversion F as [|? [n' [u' col']] ? t2 Hh Ht]; subst t1. cbn [hdr is_column] in Hh. destruct Hh as (-> & -> & Hcol).
        f_equal.
        + destruct e as [n [u col]]. cbn [fst snd]. do 2 f_equal.
          assert (Hcol2 : map Some col' = map Some col).
          { rewrite Hcol, Erows. rewrite map_map. unfold rowf. rewrite Et.
            assert (Hl : length col = length c0).
            { rewrite Forall_forall in Hlen. rewrite Hk0. apply (Hlen (n, (u, col))). rewrite Et. apply in_elt. }
            transitivity (map (fun i => Some (nth i col x0)) (seq 0 (length c0))).
            - apply map_ext. intros i. rewrite map_app, nth_error_app2 by (rewrite map_length; reflexivity).
              rewrite map_length, Nat.sub_diag. reflexivity.
            - rewrite <- Hl. rewrite <- (map_map (fun i => nth i col x0) Some). f_equal.
              rewrite <- (map_id col) at 2. rewrite <- (nth_map_seq (fun x => x) col x0). rewrite map_id. reflexivity. }
          clear -Hcol2. revert col Hcol2. induction col' as [|x l IH]; intros [|y col] H; try discriminate; [reflexivity|].
          injection H as -> H. f_equal. auto.
        + apply (IH (a ++ [e])).
          * now rewrite <- app_assoc.
          * rewrite app_length, Nat.add_1_r. exact Ht. }
    apply (G [] t t' eq_refl). exact FC.
  Qed.
End W.

(** ** What the reader rejects, skips and renames *)
Section Rej.
  Variable valid_units : str -> bool.
  Variable is_compat : str -> str -> bool.
  Notation header_cell := (header_cell valid_units is_compat).

  (** Two spellings are the same up to case and white space / underscore. *)
  Definition same_spelling (a b : str) : Prop := lower (underscores a) = lower (underscores b).

  Lemma underscores_idem s : underscores (underscores s) = underscores s.
  Proof.
    unfold underscores. rewrite map_map. apply map_ext. intros c. destruct (is_ws c) eqn:E; [reflexivity|]. now rewrite E.
  Qed.
  Lemma resolve_spec al1 k sp al2 n :
    (forall e i, In e al1 -> In i (snd e) -> ~ same_spelling i n) ->
    (exists i, In i sp /\ same_spelling i n) ->
    resolve (prep_aliases (al1 ++ (k, sp) :: al2)) (underscores n) = k.
  Proof.
    intros H1 (i & Hi & Hs). unfold resolve, prep_aliases. induction al1 as [|e al1 IH].
    - cbn [app map find fst snd].
      assert (E : mem_str (lower (underscores n)) (map (fun i => lower (underscores i)) sp) = true).
      { apply mem_str_In, in_map_iff. exists i. split; [exact Hs|assumption]. }
      now rewrite E.
    - cbn [app map find fst snd].
      destruct (mem_str (lower (underscores n)) (map (fun i => lower (underscores i)) (snd e))) eqn:E.
      + exfalso. apply mem_str_In, in_map_iff in E as (j & Ej & Hj). apply (H1 e j); [now left|assumption|exact Ej].
      + apply IH. intros e' j He'. apply H1. now right.
  Qed.
  Lemma resolve_none al n :
    (forall e i, In e al -> In i (snd e) -> ~ same_spelling i n) -> resolve (prep_aliases al) (underscores n) = underscores n.
  Proof.
    intros H. unfold resolve, prep_aliases. induction al as [|e al IH]; [reflexivity|]. cbn [map find fst snd].
    destruct (mem_str (lower (underscores n)) (map (fun i => lower (underscores i)) (snd e))) eqn:E.
    - exfalso. apply mem_str_In, in_map_iff in E as (j & Ej & Hj). apply (H e j); [now left|assumption|exact Ej].
    - apply IH. intros e' j He'. apply H. now right.
  Qed.

  Definition known (md : metadata) (n du : str) : Prop :=
    match md with None => du = lit "unitless" | Some d => aget n d = Some du end.

  Lemma header_rejects md n u du :
    word n = true -> word u = true -> ~ In n [lit "input"; lit "output"] -> ~ In u [lit "input"; lit "output"] ->
    known md n du ->
    (valid_units u = false -> header_cell md [] (n ++ lit " (" ++ u ++ lit ")") = Err ValueError) /\
    (valid_units u = true -> md <> None -> is_compat u du = false -> header_cell md [] (n ++ lit " (" ++ u ++ lit ")") = Err ValueError) /\
    header_cell md [] (n ++ lit " (input, output)") = Err UserWarning.
  Proof.
    intros Hn Hu Kn Ku Hk.
    destruct (word_facts n Hn) as [Hnn Hnp].
    assert (Kn' : n <> lit "input" /\ n <> lit "output") by (split; intros ->; apply Kn; simpl; auto).
    assert (Ku' : u <> lit "input" /\ u <> lit "output") by (split; intros ->; apply Ku; simpl; auto).
    destruct Kn' as [Kn1 Kn2], Ku' as [Ku1 Ku2].
    assert (Ei : forall x y, x <> y -> str_eqb x y = false) by (intros; now apply str_eqb_neq).
    assert (M : mem_str (lit "input") [n; u] = false /\ mem_str (lit "output") [n; u] = false).
    { unfold mem_str. simpl. rewrite !Ei; auto. }
    destruct M as [M1 M2].
    assert (Hone : forall r, (match md with None => Some (lit "unitless") | Some d => aget n d end) = Some du ->
      r = (if valid_units u then match md with Some _ => if is_compat u du then Ok (Some (n, u, LNone)) else Err ValueError | None => Ok (Some (n, u, LNone)) end
           else Err ValueError) ->
      header_cell md [] (n ++ lit " (" ++ u ++ lit ")") = r).
    { intros r E ->. unfold CsvModel.header_cell. change (n ++ lit " (" ++ u ++ lit ")") with (labelled_text n u).
      rewrite items_one by assumption. cbn [hd]. change (prep_aliases []) with (@nil (str * list str)).
      unfold resolve. cbn [find]. rewrite underscores_word by assumption. rewrite E.
      cbn [length Nat.ltb Nat.leb]. rewrite M1, M2. cbn [length Nat.ltb Nat.leb nth last]. reflexivity. }
    assert (E : (match md with None => Some (lit "unitless") | Some d => aget n d end) = Some du).
    { destruct md; simpl in Hk; [exact Hk|now rewrite Hk]. }
    split; [|split].
    - intros Hv. apply (Hone _ E). now rewrite Hv.
    - intros Hv Hm Hc. apply (Hone _ E). rewrite Hv. destruct md; [now rewrite Hc|congruence].
    - unfold CsvModel.header_cell.
      change (n ++ lit " (input, output)") with (labelled_text n ((lit "input" ++ lit ", ") ++ lit "output")).
      rewrite items_two by (try assumption; reflexivity). cbn [hd]. change (prep_aliases []) with (@nil (str * list str)).
      unfold resolve. cbn [find]. rewrite underscores_word by assumption. rewrite E.
      cbn [length Nat.ltb Nat.leb].
      assert (A1 : mem_str (lit "input") [n; lit "input"; lit "output"] = true) by (apply mem_str_In; simpl; auto).
      assert (A2 : mem_str (lit "output") [n; lit "input"; lit "output"] = true) by (apply mem_str_In; simpl; auto).
      now rewrite A1, A2.
  Qed.

  Lemma header_skips d al cell :
    aget (resolve (prep_aliases al) (underscores (hd [] (map (strip_of is_close_or_blank) (split_on is_open_or_comma [] cell))))) d = None ->
    header_cell (Some d) al cell = Ok None.
  Proof. intros H. unfold CsvModel.header_cell. now rewrite H. Qed.

  Lemma late_text (num : Type) fl md al s line :
    s_check num s = false -> cells (fst (cut_hash line)) <> [[]] ->
    to_floats num fl (cells (fst (cut_hash line))) = None ->
    read_line num fl valid_units is_compat md al s line = Err ValueError.
  Proof.
    intros Hs Hb Hf. unfold read_line. destruct (cut_hash line) as [text comm]. cbn [fst snd] in *. rewrite Hf.
    assert (E : forall (s1 : st num) (r : res (st num)), r = Err ValueError ->
                match cells text with [[]] => Ok s1 | _ => r end = Err ValueError).
    { intros s1 r ->. destruct (cells text) as [|[|? ?] [|? ?]]; try reflexivity. now elim Hb. }
    apply E. destruct comm; cbn [s_check]; now rewrite Hs.
  Qed.
  Lemma early_number (num : Type) fl md al s line row :
    s_header num s = None -> cells (fst (cut_hash line)) <> [[]] ->
    to_floats num fl (cells (fst (cut_hash line))) = Some row ->
    read_line num fl valid_units is_compat md al s line = Err UnboundLocalError.
  Proof.
    intros Hs Hb Hf. unfold read_line. destruct (cut_hash line) as [text comm]. cbn [fst snd] in *. rewrite Hf.
    assert (E : forall (s1 : st num) (r : res (st num)), r = Err UnboundLocalError ->
                match cells text with [[]] => Ok s1 | _ => r end = Err UnboundLocalError).
    { intros s1 r ->. destruct (cells text) as [|[|? ?] [|? ?]]; try reflexivity. now elim Hb. }
    apply E. destruct comm; cbn [s_header]; now rewrite Hs.
  Qed.
End Rej.

(** ** Witnesses *)
Lemma bit_word x : word (bit_show x) = true. Proof. destruct x; reflexivity. Qed.
Lemma bit_back x : bit_fl (bit_show x) = Some x. Proof. destruct x; reflexivity. Qed.
Lemma bit_noparen s x : bit_fl s = Some x -> ~ In "("%char s.
Proof.
  unfold bit_fl. destruct (str_eqb s (lit "1.0")) eqn:E1.
  - apply str_eqb_eq in E1. subst. intros _. simpl. intuition discriminate.
  - destruct (str_eqb s (lit "-2.5e-3")) eqn:E2; [|discriminate].
    apply str_eqb_eq in E2. subst. intros _. simpl. intuition discriminate.
Qed.

(** Units containing parentheses are written but cannot be read back. *)
Lemma paren_units_lost :
  exists ls, write_data_file bool bit_show None [] [(lit "mu", (lit "lbm/(ft*s)", [true; false]))] = Ok ls /\
             some_units (lit "lbm/(ft*s)") = true /\
             read_data_file bool bit_fl some_units any_compat None [] ls = Err ValueError.
Proof. eexists. split; [reflexivity|]. split; [reflexivity|]. vm_compute. reflexivity. Qed.

(** A unitless variable whose metadata declares units comes back in the metadata units. *)
Lemma unitless_becomes_default :
  exists ls, write_data_file bool bit_show None [] [(lit "x", (lit "unitless", [true]))] = Ok ls /\
             read_data_file bool bit_fl some_units any_compat (Some [(lit "x", lit "ft")]) [] ls
             = Ok ([(lit "x", (lit "ft", [true]))], [], [], []).
Proof. eexists. split; [reflexivity|]. vm_compute. reflexivity. Qed.
