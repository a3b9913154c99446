(** C59: the conversion of Fortran decks (/repo/aviary/utils/fortran_to_aviary.py). *)
From Coq Require Import Ascii QArith Lia.
From Verif Require Import Base CsvModel CsvProofs StrModel ForModel ForProofs.
Open Scope list_scope.
Open Scope nat_scope.

(** ** Reading the file *)
(** A deck written as namelists (opened and closed by a dollar sign or an ampersand, or closed by a slash) and free lines,
    with any white space, comments, empty lines and trailing commas and any number of assignments per line, is read as
    exactly its assignments in their order, each with its namelist. *)
Theorem C59_deck A (store : str -> str -> str -> A -> res A) d lines a :
  Forall good_part d -> laid_out lines (concat (map part_lines d)) ->
  parse_input_file store lines a = run store (concat (map part_events d)) a.
Proof.
  intros G L. unfold parse_input_file. rewrite (deck_lines store d lines a G L).
  destruct (run store (concat (map part_events d)) a); reflexivity.
Qed.
Print Assumptions C59_deck.

(** For any lines at all, white space, comments and commas at the end of a line do not matter. *)
Theorem C59_layout A (store : str -> str -> str -> A -> res A) lines lines' a :
  Forall2 (fun l l' => exists t, layout l t /\ layout l' t) lines lines' ->
  parse_input_file store lines a = parse_input_file store lines' a.
Proof.
  intro F. unfold parse_input_file. f_equal. generalize (@nil ascii, @None ascii, a). intro s. revert s.
  assert (Sq : forall l t, layout l t -> squeeze l = rstrip_of is_comma t).
  { intros l t (body & comment & k & -> & Nb & Hc & E). unfold squeeze.
    assert (C : fst (cut_at (is_char "!") (body ++ comment)) = body).
    { destruct Hc as [-> | [c ->]].
      - rewrite app_nil_r, cut_at_none; [reflexivity|]. now apply not_in_free.
      - rewrite cut_at_app; [reflexivity|reflexivity|]. now apply not_in_free. }
    rewrite C. unfold visible in E. rewrite E. unfold rstrip_of. now rewrite rev_app_distr, rev_repeat, drop_while_repeat. }
  induction F as [|l l' ls ls' (t & H1 & H2) F IH]; intro s; [reflexivity|]. cbn [parse_lines].
  assert (E : parse_line store s l = parse_line store s l').
  { destruct s as [[n g] x]. unfold parse_line. now rewrite (Sq l t H1), (Sq l' t H2). }
  rewrite E. destruct (parse_line store s l'); [apply IH|reflexivity].
Qed.
Print Assumptions C59_layout.

(** Collects the assignments of a file. *)
Definition record_store (n v d : str) (l : list (str * str * str)) : res (list (str * str * str)) := Ok (l ++ [(n, v, d)]).
Definition read (lines : list string) : res (list (str * str * str)) := parse_input_file record_store (map lit lines) [].
Definition ev (n v d : string) : str * str * str := (lit n, lit v, lit d).

Example C59_witness_deck : read ["! deck"; "$INGASP"; " AR = 10.5, TCR=.15 SLM=0.3,  ! wing"; ""; "  CW(3) = 1, 2,"; "$END"; "&B"; "X=1/"]%string =
  Ok [ev "INGASP" "AR" "10.5"; ev "INGASP" "TCR" ".15"; ev "INGASP" "SLM" "0.3"; ev "INGASP" "CW(3)" "1,2"; ev "B" "X" "1"].
Proof. reflexivity. Qed.

Lemma layout_plain s : forallb visible s = true -> ~ In "!"%char s -> layout s s.
Proof.
  intros V N. exists s, [], 0%nat. rewrite !app_nil_r. split; [reflexivity|]. split; [exact N|]. split; [now left|].
  apply filter_id. now apply forallb_forall.
Qed.
(** The hypotheses of the theorem can be met. *)
Example C59_witness_parts : let a := {| a_name := lit "AR"; a_vals := [lit "10.5"]; a_comma := true |} in
  let d := [Block "$"%char (lit "WTIN") [[a; a]] (Tagged (lit "END"))] in
  Forall good_part d /\ laid_out (map lit ["$WTIN"; "AR=10.5,AR=10.5"; "$END"]%string) (concat (map part_lines d)).
Proof.
  split.
  - constructor; [|constructor]. assert (Ga : good_asg {| a_name := lit "AR"; a_vals := [lit "10.5"]; a_comma := true |}).
    { split; [exists "A"%char, (lit "R"); split; reflexivity|]. split; [split; [discriminate|]|].
      - intros c [<-|[<-|[]]]; reflexivity.
      - split; [discriminate|]. split; [|discriminate]. constructor; [|constructor]. split; [discriminate|].
        intros c [<-|[<-|[<-|[<-|[]]]]]; reflexivity. }
    split; [reflexivity|]. split; [split; [discriminate|intros c [<-|[<-|[<-|[<-|[]]]]]; reflexivity]|].
    split; [cbn; intuition discriminate|]. split; [|intros c [<-|[<-|[<-|[]]]]; reflexivity].
    constructor; [|constructor]. split; [discriminate|]. split; [repeat (constructor; [exact Ga|]); constructor|discriminate].
  - cbn. repeat (apply lo_line; [discriminate|apply layout_plain; [reflexivity|cbn; intuition discriminate]|]). constructor.
Qed.

(** What the reader makes of other valid Fortran. *)
(** A namelist on one line: its variables become part of its name and it is never closed, so that the opening line of the
    next namelist closes it and the variables of that one are read without namelist. *)
Theorem C59_one_line_refuted : read ["&WTIN AR=1 /"; "&OPTION"; "X=2"; "/"]%string = Ok [ev "WTINAR=1/" "&WTINAR" "1/"; ev "" "X" "2"].
Proof. reflexivity. Qed.
Print Assumptions C59_one_line_refuted.
(** Slashes inside of text are removed from the last line of a namelist. *)
Theorem C59_slash_refuted : read ["&ENGDIN"; "EIFILE='a/b' /"]%string = Ok [ev "ENGDIN" "EIFILE" "'ab'"].
Proof. reflexivity. Qed.
Print Assumptions C59_slash_refuted.
(** Without a comma an exponent becomes part of the name of the next variable. *)
Theorem C59_exponent_refuted : read ["&WTIN"; "DGW=1.E5 AR=9"; "/"]%string = Ok [ev "WTIN" "DGW" "1."; ev "WTIN" "E5AR" "9"].
Proof. reflexivity. Qed.
Print Assumptions C59_exponent_refuted.
(** Blanks and exclamation marks inside of text are lost. *)
Theorem C59_text_refuted : read ["&OPTION"; "TITLE='A B!C'"; "/"]%string = Ok [ev "OPTION" "TITLE" "'AB"].
Proof. reflexivity. Qed.
Print Assumptions C59_text_refuted.

(** The reader itself raises only IndexError: for a line that has nothing behind the opening character, or an equal sign
    with no name in front of it. *)
Theorem C59_reader_errors A (store : str -> str -> str -> A -> res A) lines a e :
  (forall n v d x, is_ok (store n v d x) = true) -> parse_input_file store lines a = Err e -> e = IndexError.
Proof.
  intros T. unfold parse_input_file.
  assert (SA : forall n l x, is_ok (store_all store n l x) = true).
  { intros n l. induction l as [|[v d] l IH]; intro x; [reflexivity|]. cbn. specialize (T n v d x). destruct (store n v d x); [apply IH|discriminate]. }
  assert (PE : forall rest v, snd (pairs v rest) = None \/ snd (pairs v rest) = Some IndexError).
  { induction rest as [|d rest IH]; intro v; [now left|]. cbn [pairs]. destruct rest as [|d2 rest]; [now left|].
    destruct (last (split_on is_comma [] d) []) as [|c nm]; [now right|]. destruct (is_alpha c); cbn [fst snd]; apply IH. }
  assert (L : forall ls s x, parse_lines store s ls = Err x -> x = IndexError).
  { induction ls as [|l ls IH]; intros s x; [discriminate|]. cbn [parse_lines].
    destruct (parse_line store s l) as [s'|x'] eqn:E; [apply IH|]. intro Q. injection Q as <-. revert E.
    destruct s as [[n g] y]. unfold parse_line. destruct (squeeze l) as [|c r] eqn:Es; [discriminate|].
    assert (TR : forall x, track n g (c :: r) = Err x -> x = IndexError).
    { intro x. unfold track. destruct (is_tag c && _)%bool.
      - destruct (split_on (is_char c) [] (c :: r)) as [|p [|[|b nm] q]]; intro Q; try discriminate; now injection Q as <-.
      - destruct (_ || _)%bool; discriminate. }
    destruct (track n g (c :: r)) as [[[[n' g'] l'] fin]|x''] eqn:Et; cbn [rbind]; [|intro Q; injection Q as <-; now apply TR].
    specialize (SA n' (fst (assignments l')) y). destruct (store_all store n' (fst (assignments l')) y); [|discriminate]. cbn [rbind].
    unfold assignments. destruct (split_on is_eq [] l') as [|v rest]; [discriminate|].
    destruct (PE rest v) as [-> | ->]; intro Q; [discriminate|now injection Q as <-]. }
  intro H. destruct (parse_lines store ([], None, a) lines) as [s|x] eqn:E; cbn in H; [discriminate|]. injection H as <-. eapply L. exact E.
Qed.
Print Assumptions C59_reader_errors.
Example C59_witness_errors : read ["$"]%string = Err IndexError /\ read ["A=1,=2"]%string = Err IndexError.
Proof. split; reflexivity. Qed.

(** ** Names *)
(** [s] ends with [t] *)
Definition suffix (t s : str) : Prop := exists p, s = p ++ t.
Lemma remove_prefix_iff p : forall s, (exists r, remove_prefix p s = Some r) <-> exists r, s = p ++ r.
Proof.
  induction p as [|a p IH]; intro s; cbn.
  - split; intros _; [now exists s|eauto].
  - destruct s as [|b s]; [split; intros [r H]; discriminate|]. destruct (Ascii.eqb a b) eqn:E.
    + apply Ascii.eqb_eq in E. subst b. rewrite IH. split; intros [r H]; exists r; [now f_equal|now injection H].
    + apply Ascii.eqb_neq in E. split; intros [r H]; [discriminate|congruence].
Qed.
Lemma ends_with_iff s t : ends_with s t = true <-> suffix t s.
Proof.
  unfold ends_with, suffix. destruct (remove_prefix (rev t) (rev s)) as [r|] eqn:E.
  - split; [intros _|reflexivity]. destruct (proj1 (remove_prefix_iff (rev t) (rev s)) (ex_intro _ r E)) as [q Q].
    exists (rev q). rewrite <- (rev_involutive s), Q, rev_app_distr. now rewrite rev_involutive.
  - split; [discriminate|]. intros [p ->]. exfalso. rewrite rev_app_distr in E.
    destruct (proj2 (remove_prefix_iff (rev t) (rev t ++ rev p)) (ex_intro _ _ eq_refl)) as [q Q]. congruence.
Qed.

Lemma match_none_ind alternate var : snd (match_keys alternate var None) = None.
Proof.
  assert (N : forall k ns, snd (match_names k ns var None) = None).
  { intros k ns. induction ns as [|n ns IH]; [reflexivity|]. cbn. destruct (ends_with (lower n) (lower var)); exact IH. }
  induction alternate as [|[k ns] r IH]; [reflexivity|]. cbn. now rewrite N.
Qed.
Lemma match_names_in key names var k : In k (fst (match_names key names var None)) <->
  k = key /\ exists n, In n names /\ suffix (lower var) (lower n).
Proof.
  induction names as [|n names IH]; cbn.
  - split; [intros []|intros [_ (n & [] & _)]].
  - destruct (ends_with (lower n) (lower var)) eqn:E; cbn; rewrite IH.
    + apply ends_with_iff in E. split.
      * intros [<-|[-> (m & H1 & H2)]]; (split; [reflexivity|]); [exists n; auto|exists m; auto].
      * intros [-> _]. now left.
    + split; [intros [-> (m & H1 & H2)]; split; [reflexivity|exists m; auto]|].
      intros [-> (m & [<-|H1] & H2)]; [apply ends_with_iff in H2; congruence|]. split; [reflexivity|exists m; auto].
Qed.
Lemma match_keys_in alternate var k : In k (fst (match_keys alternate var None)) <->
  exists ns n, In (k, ns) alternate /\ In n ns /\ suffix (lower var) (lower n).
Proof.
  induction alternate as [|[key ns] r IH]; cbn.
  - split; [intros []|intros (ns & n & [] & _)].
  - assert (N : snd (match_names key ns var None) = None).
    { clear. induction ns as [|n ns IH]; [reflexivity|]. cbn. destruct (ends_with (lower n) (lower var)); exact IH. }
    rewrite N, in_app_iff, match_names_in, IH. split.
    + intros [[-> (n & H1 & H2)]|(ms & n & H1 & H2 & H3)]; [exists ns, n; auto|exists ms, n; auto].
    + intros (ms & n & [Q|H1] & H2 & H3); [injection Q as <- <-; left; eauto|right; eauto].
Qed.
Lemma no_index var : ~ In "("%char var -> forall alternate, update_name alternate var =
  Ok (match fst (match_keys alternate var None) with [] => [var] | l => l end, None).
Proof.
  intros N alternate. unfold update_name. rewrite split_on_none by now apply not_in_free. cbn [rev app]. now rewrite match_none_ind.
Qed.

(** A name without index stands for the Aviary variables that have a Fortran name ending with it (the namelist is part of
    the name), without regard to case; a name that matches none stands for itself. *)
Theorem C59_names alternate var : ~ In "("%char var -> exists names, update_name alternate var = Ok (names, None) /\
  ((forall k, In k names <-> exists ns n, In (k, ns) alternate /\ In n ns /\ suffix (lower var) (lower n)) \/
   (names = [var] /\ forall k ns n, In (k, ns) alternate -> In n ns -> ~ suffix (lower var) (lower n))).
Proof.
  intro N. rewrite (no_index var N). eexists. split; [reflexivity|].
  destruct (fst (match_keys alternate var None)) as [|x l] eqn:E.
  - right. split; [reflexivity|]. intros k ns n H1 H2 H3.
    assert (Q : In k (fst (match_keys alternate var None))) by (apply match_keys_in; eauto). rewrite E in Q. destruct Q.
  - left. intro k. rewrite <- E. apply match_keys_in.
Qed.
Print Assumptions C59_names.
(** The end of a name is enough: a variable of one namelist also sets a variable of a namelist with a longer name. *)
Theorem C59_suffix_refuted : exists alternate n, ~ In (lit "OLIN.OBSTO") n /\ In (lit "k", n) alternate /\
  update_name alternate (lit "OLIN.OBSTO") = Ok ([lit "k"], None).
Proof.
  exists [(lit "k", [lit "TOLIN.OBSTO"])], [lit "TOLIN.OBSTO"]. split; [cbn; intros [H|[]]; discriminate|]. split; [now left|reflexivity].
Qed.
Print Assumptions C59_suffix_refuted.
Example C59_witness_names : update_name [(lit "aircraft:wing:span", [lit "INGASP.B"]); (lit "t", [lit "INGASP.CW(3)"; lit "X"])] (lit "ingasp.cw(3)") =
  Ok ([lit "t"], None) /\ update_name [(lit "aircraft:wing:span", [lit "INGASP.B"])] (lit "INGASP.B(2)") = Ok ([lit "aircraft:wing:span"], Some 2%Z).
Proof. split; reflexivity. Qed.

(** ** Values *)
Lemma aget_aset_same {B} k (b : B) d : aget k (aset k b d) = Some b.
Proof.
  induction d as [|[k' b'] d IH]; cbn; [now rewrite str_eqb_refl|]. destruct (str_eqb k k') eqn:E; cbn; now rewrite E.
Qed.
Lemma aget_aset_other {B} k k2 (b : B) d : k2 <> k -> aget k2 (aset k b d) = aget k2 d.
Proof.
  intro N. induction d as [|[k' b'] d IH]; cbn.
  - now rewrite (proj2 (str_eqb_neq k2 k) N).
  - destruct (str_eqb k k') eqn:E; cbn.
    + apply str_eqb_eq in E. subst k'. now rewrite (proj2 (str_eqb_neq k2 k) N).
    + destruct (str_eqb k2 k'); [reflexivity|exact IH].
Qed.

Lemma pyset_ok {B} (l : list B) i v : (0 <= i < Z.of_nat (length l))%Z ->
  pyset l i v = Ok (firstn (Z.to_nat i) l ++ v :: skipn (S (Z.to_nat i)) l).
Proof.
  intro H. unfold pyset. rewrite (proj2 (Z.ltb_ge i 0)) by lia. rewrite (proj2 (Z.ltb_ge i 0)) by lia.
  rewrite (proj2 (Z.leb_gt _ i)) by lia. reflexivity.
Qed.
Lemma nth_update {B} (l : list B) v d : forall i, i < length l ->
  nth i (firstn i l ++ v :: skipn (S i) l) d = v /\ forall j, j <> i -> nth j (firstn i l ++ v :: skipn (S i) l) d = nth j l d.
Proof.
  induction l as [|x l IH]; intros i H; [cbn in H; lia|]. destruct i as [|i]; cbn [firstn skipn app nth].
  - split; [reflexivity|]. intros [|j] N; [lia|reflexivity].
  - cbn in H. destruct (IH i) as [H1 H2]; [lia|]. split; [exact H1|]. intros [|j] N; [reflexivity|]. cbn. apply H2. lia.
Qed.
Lemma length_update {B} (l : list B) v i : i < length l -> length (firstn i l ++ v :: skipn (S i) l) = length l.
Proof. intro H. rewrite app_length, firstn_length. cbn [length]. rewrite skipn_length. lia. Qed.

(** Setting an element of a list: the list grows as needed, with zeros; all other elements, the units and all other
    variables keep their values. *)
Theorem C59_element core name v vals units (d : dict) i l (u : str) : aget name d = Some (l, u) -> u <> [] -> (0 <= i)%Z ->
  exists d' l', set_value core name (v :: vals) units d (Some i) = Ok d' /\ aget name d' = Some (l', u) /\
    length l' = Nat.max (length l) (S (Z.to_nat i)) /\
    (forall j, nth j l' None = if Nat.eqb j (Z.to_nat i) then v else if Nat.ltb j (length l) then nth j l None
                               else if Nat.ltb j (length l') then Some (DInt 0) else None) /\
    (forall k, k <> name -> aget k d' = aget k d).
Proof.
  intros H Nu Hi. unfold set_value. rewrite H.
  set (l0 := l ++ repeat (Some (DInt 0)) (Z.to_nat (i - (Z.of_nat (length l) - 1)))).
  assert (L0 : length l0 = Nat.max (length l) (S (Z.to_nat i))) by (unfold l0; rewrite app_length, repeat_length; lia).
  rewrite pyset_ok by lia. cbn [rbind]. eexists. eexists. split; [reflexivity|]. rewrite aget_aset_same.
  split; [destruct u; [congruence|reflexivity]|]. rewrite length_update by lia. split; [exact L0|]. split.
  - intro j. destruct (nth_update l0 v None (Z.to_nat i)) as [U1 U2]; [lia|]. destruct (Nat.eqb_spec j (Z.to_nat i)) as [->|N]; [exact U1|].
    rewrite U2 by exact N. unfold l0. destruct (Nat.ltb_spec j (length l)).
    + now rewrite app_nth1.
    + rewrite app_nth2 by lia. fold l0. destruct (Nat.ltb_spec j (length l0)).
      * rewrite nth_indep with (d' := Some (DInt 0)); [|unfold l0 in *; rewrite app_length in *; lia].
        apply (nth_repeat).
      * apply nth_overflow. unfold l0 in *. rewrite app_length in *. lia.
  - intros k N. now apply aget_aset_other.
Qed.
Print Assumptions C59_element.

(** Setting a whole value: other variables keep theirs, a known variable keeps its units, and unless the old value is a
    bool (or an empty list, which raises IndexError) the new value is stored as given. *)
Theorem C59_whole core name vals units (d : dict) :
  (forall l u, aget name d = Some (l, u) -> u <> [] /\ match l with [] | Some (DBool _) :: _ => False | _ => True end) ->
  exists d' u, set_value core name vals units d None = Ok d' /\ aget name d' = Some (vals, u) /\ u <> [] /\
    (forall l u', aget name d = Some (l, u') -> u = u') /\
    (aget name d = None -> units <> [] -> u = units) /\
    (aget name d = None -> units = [] -> forall c, core name = Some c -> c <> [] -> u = c) /\
    (forall k, k <> name -> aget k d' = aget k d).
Proof.
  intro H. unfold set_value. destruct (aget name d) as [[l u0]|] eqn:E.
  - destruct (H l u0 eq_refl) as [Nu Hl]. exists (aset name (vals, u0) d), u0.
    assert (U : match u0 with [] => lit "unitless" | _ => u0 end = u0) by (destruct u0; [congruence|reflexivity]). rewrite U.
    split; [destruct l as [|[[]|] l]; try contradiction; reflexivity|]. rewrite aget_aset_same. split; [reflexivity|]. split; [exact Nu|].
    split; [intros l' u' Q; now injection Q|]. split; [discriminate|]. split; [discriminate|]. intros k N. now apply aget_aset_other.
  - eexists. eexists. split; [reflexivity|]. rewrite aget_aset_same. split; [reflexivity|].
    split; [destruct units as [|a r]; [destruct (core name) as [[|b c]|]; discriminate|discriminate]|].
    split; [discriminate|]. split; [intros _ Nu; destruct units; [congruence|reflexivity]|].
    split; [intros _ -> c -> Nc; destruct c; [congruence|reflexivity]|]. intros k N. now apply aget_aset_other.
Qed.
Print Assumptions C59_whole.

Lemma set_value_other core name vals units d ind d' : set_value core name vals units d ind = Ok d' ->
  aget name d' <> None /\ forall k, k <> name -> aget k d' = aget k d.
Proof.
  unfold set_value. set (u := match _ with [] => _ | _ => _ end).
  assert (K : forall x, Ok (aset name x d) = Ok d' -> aget name d' <> None /\ forall k, k <> name -> aget k d' = aget k d).
  { intros x Q. injection Q as <-. rewrite aget_aset_same. split; [discriminate|]. intros k N. now apply aget_aset_other. }
  destruct ind as [i|].
  - destruct vals as [|v vals]; [discriminate|]. match goal with |- context [pyset ?l i v] => destruct (pyset l i v) as [l'|]; cbn; [|discriminate] end. apply K.
  - destruct (aget name d) as [[[|[[]|] l] u0]|]; try discriminate; try apply K. destruct vals; [discriminate|apply K].
Qed.

(** The first assignment to an element behind the first leaves None in front. *)
Theorem C59_first_element_refuted core name v u (d : dict) : aget name d = None ->
  exists d' w, set_value core name [v] u d (Some 2%Z) = Ok d' /\ aget name d' = Some ([None; Some (DInt 0); v], w).
Proof.
  intro H. unfold set_value. rewrite H. eexists. eexists. split; [reflexivity|]. now rewrite aget_aset_same.
Qed.
Print Assumptions C59_first_element_refuted.
(** Index zero inside of a namelist overwrites the last element. *)
Theorem C59_index_zero_refuted core name v u (d : dict) a b w : aget name d = Some ([a; b], w) ->
  exists d' w', set_value core name [v] u d (Some (-1)%Z) = Ok d' /\ aget name d' = Some ([a; v], w').
Proof. intro H. unfold set_value. rewrite H. cbn. eexists. eexists. split; [reflexivity|]. now rewrite aget_aset_same. Qed.
Print Assumptions C59_index_zero_refuted.
(** A bool becomes text at the first assignment of a number and the number itself at the second; other numbers are kept. *)
Theorem C59_bool_refuted core name b w (d : dict) : aget name d = Some ([Some (DBool b)], w) ->
  (exists d1 w1, set_value core name [Some (DInt 1)] [] d None = Ok d1 /\ aget name d1 = Some (text "True", w1) /\
     exists d2 w2, set_value core name [Some (DInt 0)] [] d1 None = Ok d2 /\ aget name d2 = Some ([Some (DInt 0)], w2)) /\
  (exists d1 w1, set_value core name [Some (DInt 7)] [] d None = Ok d1 /\ aget name d1 = Some ([Some (DInt 7)], w1)).
Proof.
  intro H. split.
  - eexists. eexists. unfold set_value at 1. rewrite H. cbn [equals Z.eqb Pos.eqb]. split; [reflexivity|]. rewrite aget_aset_same. split; [reflexivity|].
    eexists. eexists. unfold set_value. rewrite aget_aset_same. cbn [text]. split; [reflexivity|]. now rewrite aget_aset_same.
  - eexists. eexists. unfold set_value. rewrite H. cbn [equals Z.eqb Pos.eqb]. split; [reflexivity|]. now rewrite aget_aset_same.
Qed.
Print Assumptions C59_bool_refuted.
(** A variable that is left empty twice raises IndexError. *)
Theorem C59_empty_twice_refuted core name vals u (d : dict) w : aget name d = Some ([], w) -> set_value core name vals u d None = Err IndexError.
Proof. intro H. unfold set_value. now rewrite H. Qed.
Print Assumptions C59_empty_twice_refuted.
Example C59_witness_value : exists d, set_value (fun _ => None) (lit "a") [Some (DInt 5)] [] [(lit "a", ([Some (DInt 1)], lit "ft"))] (Some 2%Z) = Ok d /\
  aget (lit "a") d = Some ([Some (DInt 1); Some (DInt 0); Some (DInt 5)], lit "ft").
Proof. eexists. split; reflexivity. Qed.

(** ** Scaler variables *)
Lemma aget_adelete {B} k k2 (d : list (str * B)) : aget k2 (adelete k d) = if str_eqb k k2 then None else aget k2 d.
Proof.
  unfold adelete. induction d as [|[k' b'] d IH]; cbn; [now destruct (str_eqb k k2)|]. destruct (str_eqb k k') eqn:E; cbn.
  - apply str_eqb_eq in E. subst k'. rewrite IH. destruct (str_eqb k k2) eqn:E2; [reflexivity|].
    rewrite (proj2 (str_eqb_neq k2 k)); [reflexivity|]. apply str_eqb_neq in E2. congruence.
  - rewrite IH. destruct (str_eqb k2 k') eqn:E2; [|reflexivity]. apply str_eqb_eq in E2. subst k'. now rewrite E.
Qed.
Lemma scaler_neq var : var <> var ++ lit "_scaler".
Proof. intro H. apply (f_equal (@length _)) in H. rewrite app_length in H. cbn in H. lia. Qed.

(** A scaler of at most zero is removed, one above the limit becomes the value of the variable itself, all others are kept;
    nothing else changes. *)
Theorem C59_scaler limit var (d : dict) v r q : aget (var ++ lit "_scaler") d = Some (v :: r, lit "unitless") -> number v = Ok q -> (0 < limit)%Z ->
  exists d', update_scaler limit var d = Ok d' /\
    (forall k, k <> var -> k <> var ++ lit "_scaler" -> aget k d' = aget k d) /\
    ((q <= 0)%Q -> aget (var ++ lit "_scaler") d' = None /\ aget var d' = aget var d) /\
    ((0 < q <= inject_Z limit)%Q -> d' = d) /\
    ((inject_Z limit < q)%Q -> aget (var ++ lit "_scaler") d' = None /\ exists u, aget var d' = Some ([v], u)).
Proof.
  intros H Hq Hl. unfold update_scaler. rewrite H, str_eqb_refl. cbn [negb]. rewrite Hq. cbn [rbind].
  pose proof (scaler_neq var) as Ns. set (sc := var ++ lit "_scaler") in *.
  assert (Ns' : str_eqb sc var = false) by (apply str_eqb_neq; congruence).
  assert (L : (0 < inject_Z limit)%Q) by (change 0%Q with (inject_Z 0); rewrite <- Zlt_Qlt; exact Hl).
  destruct (Qle_bool q 0) eqn:E1; [apply Qle_bool_iff in E1|assert (~ (q <= 0)%Q) by (intro Q; apply Qle_bool_iff in Q; congruence)].
  - eexists. split; [reflexivity|]. split; [intros k N1 N2; rewrite aget_adelete, (proj2 (str_eqb_neq sc k)) by congruence; reflexivity|].
    split; [intros _; rewrite !aget_adelete, str_eqb_refl, Ns'; split; reflexivity|].
    split; [intros [Q _]; exfalso; apply (Qlt_not_le _ _ Q E1)|]. intro Q. exfalso.
    apply (Qlt_not_le _ _ (Qlt_trans _ _ _ L Q) E1).
  - destruct (Qle_bool q (inject_Z limit)) eqn:E2; [apply Qle_bool_iff in E2|assert (~ (q <= inject_Z limit)%Q) by (intro Q; apply Qle_bool_iff in Q; congruence)].
    + exists d. split; [reflexivity|]. split; [reflexivity|]. split; [contradiction|]. split; [reflexivity|].
      intro Q. exfalso. apply (Qlt_not_le _ _ Q E2).
    + eexists. split; [reflexivity|]. split.
      * intros k N1 N2. rewrite aget_adelete, (proj2 (str_eqb_neq sc k)), aget_aset_other by congruence. reflexivity.
      * split; [contradiction|]. split; [intros [_ Q]; contradiction|]. intros _. rewrite !aget_adelete, str_eqb_refl, Ns', aget_aset_same.
        split; [reflexivity|]. eexists. reflexivity.
Qed.
Print Assumptions C59_scaler.
(** A scaler of zero, which means no mass, is removed like one that was never given, so the default scaler applies; a value
    equal to the limit stays a factor. *)
Theorem C59_scaler_refuted var v : number v = Ok 0%Q -> update_scaler 5 var [(var ++ lit "_scaler", ([v], lit "unitless"))] = Ok [].
Proof.
  intro H. unfold update_scaler. cbn [aget]. rewrite !str_eqb_refl. cbn [negb]. rewrite H. cbn [rbind].
  change (Qle_bool 0 0) with true. cbn. now rewrite str_eqb_refl.
Qed.
Print Assumptions C59_scaler_refuted.
Example C59_witness_scaler : update_scaler 5 (lit "aircraft:wing:mass") [(lit "aircraft:wing:mass_scaler", ([Some (DFloat 1234)], lit "unitless"))] =
  Ok [(lit "aircraft:wing:mass", ([Some (DFloat 1234)], lit "lbm"))] /\
  update_scaler 10 (lit "f:wetted_area") [(lit "f:wetted_area_scaler", ([Some (DInt 20)], lit "unitless"))] =
  Ok [(lit "f:wetted_area", ([Some (DInt 20)], lit "ft**2"))].
Proof. split; reflexivity. Qed.
