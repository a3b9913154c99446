(** Proofs for C08 and C09. *)
From Coq Require Import Ascii.
From Verif Require Import Base CsvModel.

(** ** Specification vocabulary *)

(** Characters with no meaning in the file format. *)
Definition plain (c : ascii) : bool :=
  negb (is_ws c || is_delim c || is_hash c || Ascii.eqb c "(" || Ascii.eqb c ")")%bool.
Definition word (s : str) : bool := (negb (str_eqb s []) && forallb plain s)%bool.

(** The recognised header cells with their column number. *)
Fixpoint numbered {X} (i : nat) (os : list (option X)) : list (nat * X) :=
  match os with
  | [] => []
  | None :: r => numbered (S i) r
  | Some x :: r => (i, x) :: numbered (S i) r
  end.
Definition entry_name (x : nat * (str * str * label)) : str := fst (fst (snd x)).
Definition labelled (l : label) (x : nat * (str * str * label)) : bool :=
  match l, snd (snd x) with LInput, LInput => true | LOutput, LOutput => true | LNone, LNone => true | _, _ => false end.

(** ** Strings *)
Lemma str_eqb_eq a b : str_eqb a b = true <-> a = b.
Proof. unfold str_eqb. destruct (list_eq_dec ascii_dec a b); split; congruence. Qed.
Lemma str_eqb_refl a : str_eqb a a = true.
Proof. now apply str_eqb_eq. Qed.
Lemma str_eqb_neq a b : str_eqb a b = false <-> a <> b.
Proof. unfold str_eqb. destruct (list_eq_dec ascii_dec a b); split; congruence. Qed.
Lemma mem_str_In x l : mem_str x l = true <-> In x l.
Proof.
  unfold mem_str. rewrite existsb_exists. split.
  - intros (y & Hy & E). apply str_eqb_eq in E. now subst.
  - intros H. exists x. split; [assumption|apply str_eqb_refl].
Qed.

Lemma drop_while_none p l : match l with [] => true | c :: _ => negb (p c) end = true -> drop_while p l = l.
Proof. destruct l as [|c l]; simpl; [reflexivity|]. destruct (p c); [discriminate|reflexivity]. Qed.
Lemma drop_while_app p a l : forallb p a = true -> drop_while p (a ++ l) = drop_while p l.
Proof. induction a as [|c a IH]; simpl; [reflexivity|]. intros H. apply andb_true_iff in H as [H1 H2]. rewrite H1. auto. Qed.
Lemma forallb_rev {X} (p : X -> bool) l : forallb p (rev l) = forallb p l.
Proof. induction l as [|c l IH]; simpl; [reflexivity|]. rewrite forallb_app, IH. simpl. rewrite andb_true_r. apply andb_comm. Qed.
Definition first_ok (p : ascii -> bool) (l : str) : bool := match l with [] => true | c :: _ => negb (p c) end.
Lemma strip_core p a t b :
  forallb p a = true -> forallb p b = true -> first_ok p t = true -> first_ok p (rev t) = true -> t <> [] ->
  strip_of p (a ++ t ++ b) = t.
Proof.
  intros Ha Hb Hf Hl Hn. unfold strip_of. rewrite drop_while_app by assumption.
  rewrite (drop_while_none p (t ++ b)).
  - rewrite rev_app_distr, drop_while_app by now rewrite forallb_rev.
    rewrite drop_while_none; [apply rev_involutive|exact Hl].
  - destruct t; [congruence|exact Hf].
Qed.
Lemma strip_all p t a b :
  forallb p a = true -> forallb p b = true -> forallb (fun c => negb (p c)) t = true -> t <> [] ->
  strip_of p (a ++ t ++ b) = t.
Proof.
  intros Ha Hb Ht Hn. apply strip_core; auto.
  - destruct t as [|c t]; [reflexivity|]. simpl in *. now apply andb_true_iff in Ht.
  - rewrite <- forallb_rev in Ht. destruct (rev t) as [|c r]; [reflexivity|]. simpl in *. now apply andb_true_iff in Ht.
Qed.

Lemma plain_facts c : plain c = true ->
  is_ws c = false /\ is_delim c = false /\ is_hash c = false /\ Ascii.eqb c "(" = false /\ Ascii.eqb c ")" = false.
Proof.
  unfold plain. rewrite negb_true_iff. rewrite !orb_false_iff. tauto.
Qed.
Lemma word_facts s : word s = true -> s <> [] /\ forallb plain s = true.
Proof. unfold word. rewrite andb_true_iff, negb_true_iff. intros [H1 H2]. split; [|assumption]. now apply str_eqb_neq. Qed.

Lemma forallb_impl {X} (p q : X -> bool) l : (forall x, p x = true -> q x = true) -> forallb p l = true -> forallb q l = true.
Proof. intros H. rewrite !forallb_forall. firstorder. Qed.

Lemma cut_hash_clean l : forallb (fun c => negb (is_hash c)) l = true -> cut_hash l = (l, None).
Proof.
  induction l as [|c l IH]; simpl; [reflexivity|]. intros H. apply andb_true_iff in H as [H1 H2].
  apply negb_true_iff in H1. rewrite H1, (IH H2). reflexivity.
Qed.

(** ** Splitting a line into cells *)

(** A cell text that the splitter keeps together, whatever follows. *)
Record safe (t : str) : Prop := {
  safe_ne : t <> [];
  safe_first : first_ok is_ws t = true;
  safe_last : first_ok is_ws (rev t) = true;
  safe_hash : forallb (fun c => negb (is_hash c)) t = true;
  safe_keep : forall rest cur, next_closes rest = false -> split_cells false cur (t ++ rest) = split_cells false (rev t ++ cur) rest;
  safe_close : forall rest, next_closes rest = false -> next_closes (t ++ rest) = false
}.

Lemma plain_keep t : forallb plain t = true ->
  (forall rest cur, split_cells false cur (t ++ rest) = split_cells false (rev t ++ cur) rest) /\
  (forall rest, next_closes (t ++ rest) = next_closes rest).
Proof.
  induction t as [|c t IH]; intros H; [split; reflexivity|].
  simpl in H. apply andb_true_iff in H as [H1 H2].
  destruct (plain_facts c H1) as (Hw & Hd & _ & Ho & Hc). destruct (IH H2) as [I1 I2]. split; intros.
  - simpl. rewrite Hd. simpl. rewrite I1. simpl. now rewrite <- app_assoc.
  - simpl. rewrite Ho, Hc. apply I2.
Qed.

Lemma word_safe t : word t = true -> safe t.
Proof.
  intros H. destruct (word_facts t H) as [Hn Hp]. destruct (plain_keep t Hp) as [K1 K2]. constructor; auto.
  - destruct t as [|c t]; [reflexivity|]. simpl in *. apply andb_true_iff in Hp as [Hp _]. now rewrite (proj1 (plain_facts c Hp)).
  - rewrite <- forallb_rev in Hp. destruct (rev t) as [|c r]; [reflexivity|]. simpl in *. apply andb_true_iff in Hp as [Hp _]. now rewrite (proj1 (plain_facts c Hp)).
  - revert Hp. apply forallb_impl. intros c Hc. now rewrite (proj1 (proj2 (proj2 (plain_facts c Hc)))).
  - intros rest Hr. now rewrite K2.
Qed.

Lemma split_skip l cur : first_ok is_ws l = true -> split_cells true cur l = split_cells false cur l.
Proof. destruct l as [|c l]; [reflexivity|]. simpl. intros H. apply negb_true_iff in H. now rewrite H. Qed.
Lemma split_blanks k l cur : split_cells true cur (repeat " "%char k ++ l) = split_cells true cur l.
Proof. induction k; simpl; auto. Qed.
Lemma blanks_ws k : forallb is_ws (repeat " "%char k) = true.
Proof. induction k; simpl; auto. Qed.
Lemma next_closes_blanks k l : next_closes (repeat " "%char k ++ l) = next_closes l.
Proof. induction k; simpl; auto. Qed.
Lemma blanks_hash k : forallb (fun c => negb (is_hash c)) (repeat " "%char k) = true.
Proof. induction k; simpl; auto. Qed.

(** A row of padded cells behind a separator. *)
Definition padded (x : nat * str) : str := repeat " "%char (fst x) ++ snd x.
Definition tail_text (xs : list (nat * str)) : str := flat_map (fun y => lit ", " ++ padded y) xs.

Lemma tail_closes xs : Forall (fun x => safe (snd x)) xs -> next_closes (tail_text xs) = false.
Proof.
  induction xs as [|[k t] xs IH]; intros H; [reflexivity|]. inversion H as [|? ? Hs Hr]; subst.
  unfold tail_text. simpl. unfold padded. simpl. rewrite <- app_assoc, next_closes_blanks.
  apply (safe_close _ Hs). now apply IH.
Qed.

Lemma app_first p (a b : str) : a <> [] -> first_ok p (a ++ b) = first_ok p a.
Proof. destruct a; [congruence|reflexivity]. Qed.

Lemma split_tail xs cur : Forall (fun x => safe (snd x)) xs ->
  split_cells false cur (tail_text xs) = rev cur :: map snd xs.
Proof.
  revert cur. induction xs as [|[k t] xs IH]; intros cur H; [reflexivity|].
  inversion H as [|? ? Hs Hr]; subst. simpl in Hs.
  unfold tail_text. cbn [flat_map app lit list_ascii_of_string]. fold (tail_text xs).
  change (split_cells false cur ("," :: " " :: (padded (k, t) ++ tail_text xs))%char%list = rev cur :: map snd ((k, t) :: xs)).
  assert (Hc : next_closes (" "%char :: padded (k, t) ++ tail_text xs) = false).
  { simpl. unfold padded. simpl. rewrite <- app_assoc, next_closes_blanks. apply (safe_close _ Hs). now apply tail_closes. }
  assert (E : split_cells true [] (padded (k, t) ++ tail_text xs) = t :: map snd xs).
  { unfold padded. cbn [fst snd]. rewrite <- app_assoc, split_blanks, split_skip.
    - rewrite (safe_keep _ Hs) by now apply tail_closes. rewrite app_nil_r, IH by assumption. now rewrite rev_involutive.
    - rewrite app_first by apply (safe_ne _ Hs). apply (safe_first _ Hs). }
  remember (padded (k, t) ++ tail_text xs) as rest eqn:Er.
  cbn [split_cells andb].
  change (is_delim ",") with true. cbn [andb]. rewrite Hc. cbn [negb].
  change (is_ws " ") with true. cbn [andb]. rewrite E. reflexivity.
Qed.

Lemma rev_last_first p (a t : str) : t <> [] -> first_ok p (rev (a ++ t)) = first_ok p (rev t).
Proof.
  intros H. rewrite rev_app_distr. destruct (rev t) eqn:E; [|reflexivity].
  apply (f_equal (@rev _)) in E. rewrite rev_involutive in E. simpl in E. congruence.
Qed.

Lemma tail_last xs t : safe t -> Forall (fun x => safe (snd x)) xs -> first_ok is_ws (rev (t ++ tail_text xs)) = true.
Proof.
  intros Ht H. revert t Ht. induction H as [|[k u] xs Hs Hr IH]; intros t Ht.
  - unfold tail_text; simpl. rewrite app_nil_r. apply (safe_last _ Ht).
  - assert (E : tail_text ((k, u) :: xs) = (lit ", " ++ repeat " "%char k) ++ (u ++ tail_text xs)).
    { unfold tail_text. cbn [flat_map]. unfold padded. cbn [fst snd]. rewrite !app_assoc. reflexivity. }
    rewrite E, app_assoc, rev_last_first.
    + apply IH; assumption.
    + destruct u; [exfalso; now apply (safe_ne _ Hs)|discriminate].
Qed.

Lemma cells_joined x xs : safe (snd x) -> Forall (fun y => safe (snd y)) xs ->
  cells (join (lit ", ") (map padded (x :: xs))) = map snd (x :: xs) /\
  cut_hash (join (lit ", ") (map padded (x :: xs))) = (join (lit ", ") (map padded (x :: xs)), None).
Proof.
  intros Hx Hxs.
  assert (Hj : join (lit ", ") (map padded (x :: xs)) = repeat " "%char (fst x) ++ (snd x ++ tail_text xs) ++ []).
  { simpl. unfold padded at 1. unfold tail_text. rewrite app_nil_r, <- app_assoc. do 2 f_equal.
    clear. induction xs as [|y xs IH]; [reflexivity|]. cbn [flat_map map]. now rewrite IH. }
  split.
  - rewrite Hj. unfold cells, strip. rewrite strip_core.
    + rewrite (safe_keep _ Hx) by now apply tail_closes. rewrite app_nil_r, split_tail by assumption.
      now rewrite rev_involutive.
    + apply blanks_ws.
    + reflexivity.
    + rewrite app_first by apply (safe_ne _ Hx). apply (safe_first _ Hx).
    + now apply tail_last.
    + destruct (snd x) eqn:E; [exfalso; apply (safe_ne _ Hx); reflexivity|discriminate].
  - apply cut_hash_clean. rewrite Hj, app_nil_r. rewrite !forallb_app, blanks_hash, (safe_hash _ Hx). simpl.
    clear Hj. induction Hxs as [|y ys Hy Hys IH]; [reflexivity|].
    unfold tail_text. cbn [flat_map]. rewrite !forallb_app. unfold padded. rewrite forallb_app, blanks_hash, (safe_hash _ Hy).
    exact IH.
Qed.

Lemma Forall2_len {X Y} (P : X -> Y -> Prop) l l' : Forall2 P l l' -> length l = length l'.
Proof. induction 1; simpl; congruence. Qed.

(** ** The reader *)
Section R.
  Variable num : Type.
  Variable show : num -> str.
  Variable fl : str -> option num.
  Variable valid_units : str -> bool.
  Variable is_compat : str -> str -> bool.
  Notation header_cell := (header_cell valid_units is_compat).
  Notation header_cells := (header_cells num valid_units is_compat).
  Notation read_line := (read_line num fl valid_units is_compat).
  Notation read_lines := (read_lines num fl valid_units is_compat).
  Notation read_data_file := (read_data_file num fl valid_units is_compat).
  Notation to_floats := (to_floats num fl).

  Lemma aset_new {B} k (b : B) d : ~ In k (map fst d) -> aset k b d = d ++ [(k, b)].
  Proof.
    induction d as [|[k' b'] d IH]; simpl; [reflexivity|]. intros H.
    destruct (str_eqb k k') eqn:E; [apply str_eqb_eq in E; subst; tauto|]. rewrite IH; tauto.
  Qed.

  (** Header parsing with pairwise distinct names. *)
  Lemma header_cells_spec md al cs os : Forall2 (fun c o => header_cell md al c = Ok o) cs os ->
    forall i h ins outs,
    NoDup (map fst (h_data num h) ++ map entry_name (numbered i os)) ->
    header_cells md al i cs h ins outs =
      Ok ({| h_data := h_data num h ++ map (fun x => (entry_name x, (snd (fst (snd x)), []))) (numbered i os);
             h_idx := h_idx num h ++ map fst (numbered i os) |},
          ins ++ map entry_name (filter (labelled LInput) (numbered i os)),
          outs ++ map entry_name (filter (labelled LOutput) (numbered i os))).
  Proof.
    induction 1 as [|c o cs os Hc Hcs IH]; intros i h ins outs ND.
    - simpl. rewrite !app_nil_r. destruct h; reflexivity.
    - cbn [CsvModel.header_cells]. rewrite Hc. destruct o as [[[n u] l]|]; cbn [numbered] in *.
      + assert (Hn : ~ In n (map fst (h_data num h))).
        { cbn [map entry_name] in ND. unfold entry_name at 1 in ND. simpl in ND. apply NoDup_remove_2 in ND.
          intros Hin. apply ND. apply in_or_app. now left. }
        rewrite (aset_new n _ _ Hn). rewrite IH.
        * cbn [h_data h_idx map app filter]. rewrite <- !app_assoc.
          destruct l; cbn [labelled snd fst map app]; rewrite <- ?app_assoc; reflexivity.
        * cbn [h_data]. rewrite map_app, <- app_assoc. exact ND.
      + now apply IH.
  Qed.

  (** Columns: the k-th variable collects cell [idx_k] of every row. *)
  Definition grown (rows : list (list num)) (i : nat) (old new : list num) : Prop :=
    exists add, new = old ++ add /\ map Some add = map (fun r => nth_error r i) rows.

  Lemma append_row_spec d idx row :
    length d = length idx -> Forall (fun i => i < length row) idx ->
    exists d', append_row num d idx row = Ok d' /\ length d' = length d /\
      Forall2 (fun (p : nat * (str * (str * list num))) e' =>
                 match p, e' with (i, (n, (u, old))), (n', (u', new)) => n' = n /\ u' = u /\ grown [row] i old new end)
              (combine idx d) d'.
  Proof.
    revert idx. induction d as [|[n [u col]] d IH]; intros [|i idx] Hl Hi; simpl in *; try discriminate.
    - exists []. auto.
    - inversion Hi as [|? ? H1 H2]; subst.
      destruct (IH idx) as (d' & E & L & F); [congruence|assumption|].
      destruct (nth_error row i) as [x|] eqn:Ex; [|apply nth_error_None in Ex; lia].
      rewrite E. simpl. eexists. split; [reflexivity|]. split; [simpl; congruence|].
      constructor; [|assumption]. repeat split; auto. exists [x]. split; [reflexivity|]. simpl. now rewrite Ex.
  Qed.

  (** Lines after the header: blank (or comment only) lines and full numeric rows. *)
  Definition blank (line : str) : Prop := cells (fst (cut_hash line)) = [[]].
  Definition full_row (n : nat) (line : str) (row : list num) : Prop :=
    length row = n /\ Forall (fun c => c <> []) (cells (fst (cut_hash line))) /\
    map fl (cells (fst (cut_hash line))) = map Some row.
  Definition body_line (n : nat) (line : str) (o : option (list num)) : Prop :=
    match o with None => blank line | Some row => full_row n line row end.
  Definition comment_of (line : str) : list str :=
    match snd (cut_hash line) with Some c => [strip c] | None => [] end.
  Fixpoint catopt {X} (l : list (option X)) : list X :=
    match l with [] => [] | Some x :: r => x :: catopt r | None :: r => catopt r end.

  Lemma to_floats_full cs row : Forall (fun c => c <> []) cs -> map fl cs = map Some row -> to_floats cs = Some row.
  Proof.
    revert row. induction cs as [|c cs IH]; intros row Hn E; destruct row as [|x row]; try discriminate.
    - reflexivity.
    - inversion Hn; subst. simpl in E. injection E as E1 E2. simpl. destruct c; [congruence|].
      rewrite E1. now rewrite (IH row).
  Qed.

  Lemma grown_nil i old : grown [] i old old.
  Proof. exists []. now rewrite app_nil_r. Qed.
  Lemma grown_trans r1 r2 i a b c : grown r1 i a b -> grown r2 i b c -> grown (r1 ++ r2) i a c.
  Proof.
    intros (x & E1 & H1) (y & E2 & H2). exists (x ++ y). subst. split; [now rewrite app_assoc|].
    now rewrite !map_app, H1, H2.
  Qed.

  Definition cols_grown (rows : list (list num)) (p : nat * (str * (str * list num))) (e' : str * (str * list num)) : Prop :=
    match p, e' with (i, (n, (u, old))), (n', (u', new)) => n' = n /\ u' = u /\ grown rows i old new end.

  Lemma cols_refl idx d : length d = length idx -> Forall2 (cols_grown []) (combine idx d) d.
  Proof.
    revert idx. induction d as [|[n [u c]] d IH]; intros [|i idx] H; simpl in *; try discriminate; constructor.
    - repeat split. apply grown_nil.
    - apply IH. congruence.
  Qed.
  Lemma cols_trans r1 r2 idx d d' d'' : length d = length idx ->
    Forall2 (cols_grown r1) (combine idx d) d' -> Forall2 (cols_grown r2) (combine idx d') d'' ->
    Forall2 (cols_grown (r1 ++ r2)) (combine idx d) d''.
  Proof.
    revert idx d' d''. induction d as [|[n [u c]] d IH]; intros [|i idx] d' d'' H F G; simpl in *; try discriminate.
    - inversion F; subst. inversion G; subst. constructor.
    - inversion F as [|? [n' [u' c']] ? dd' Hh Ht]; subst. simpl in G.
      inversion G as [|? [n'' [u'' c'']] ? dd'' Hh2 Ht2]; subst.
      destruct Hh as (-> & -> & Hh). destruct Hh2 as (-> & -> & Hh2). constructor.
      + repeat split. eapply grown_trans; eassumption.
      + eapply IH; [congruence|eassumption|eassumption].
  Qed.

  Lemma cells_nonempty t : cells t <> [].
  Proof.
    unfold cells. generalize (strip t) as l. generalize false as b, (@nil ascii) as cur.
    intros b cur l. revert b cur. induction l as [|c l IH]; intros b cur; simpl; [discriminate|].
    destruct (b && is_ws c)%bool; [apply IH|]. destruct (is_delim c && negb (next_closes l))%bool; [discriminate|apply IH].
  Qed.

  Lemma read_body md al n lines os : Forall2 (body_line n) lines os ->
    forall s h, s_header num s = Some h -> length (h_data num h) = length (h_idx num h) ->
    Forall (fun i => i < n) (h_idx num h) -> 
    exists d, read_lines md al s lines =
        Ok {| s_header := Some {| h_data := d; h_idx := h_idx num h |};
              s_check := match catopt os with [] => s_check num s | _ => false end;
              s_in := s_in num s; s_out := s_out num s; s_comm := s_comm num s ++ flat_map comment_of lines |} /\
      Forall2 (cols_grown (catopt os)) (combine (h_idx num h) (h_data num h)) d.
  Proof.
    induction 1 as [|line o lines os Hl Hls IH]; intros s h Hh Hlen Hidx.
    - exists (h_data num h). simpl. rewrite app_nil_r. split.
      + destruct s; simpl in *; subst. destruct h; reflexivity.
      + now apply cols_refl.
    - cbn [CsvModel.read_lines flat_map]. unfold CsvModel.read_line.
      unfold body_line, blank, full_row in Hl. unfold comment_of at 1.
      destruct (cut_hash line) as [text comm] eqn:Ec. cbn [fst snd] in *.
      set (s1 := match comm with
                 | Some c => {| s_header := s_header num s; s_check := s_check num s; s_in := s_in num s; s_out := s_out num s;
                                s_comm := s_comm num s ++ [strip c] |}
                 | None => s end).
      assert (Hs1 : s_header num s1 = Some h /\ s_check num s1 = s_check num s /\ s_in num s1 = s_in num s /\ s_out num s1 = s_out num s /\
                    s_comm num s1 = s_comm num s ++ match comm with Some c => [strip c] | None => [] end).
      { unfold s1. destruct comm; simpl; rewrite ?app_nil_r; auto. }
      destruct Hs1 as (H1 & H2 & H3 & H4 & H5). clearbody s1.
      destruct o as [row|].
      + destruct Hl as (Hr & Hn & Hm).
        pose proof (to_floats_full _ _ Hn Hm) as Hf.
        destruct (append_row_spec (h_data num h) (h_idx num h) row) as (d1 & E1 & L1 & F1); [assumption|now rewrite Hr|].
        assert (Hbr : match cells text with
                      | [[]] => Ok s1
                      | _ => Ok {| s_header := Some {| h_data := d1; h_idx := h_idx num h |}; s_check := false;
                                   s_in := s_in num s1; s_out := s_out num s1; s_comm := s_comm num s1 |}
                      end = Ok {| s_header := Some {| h_data := d1; h_idx := h_idx num h |}; s_check := false;
                                   s_in := s_in num s1; s_out := s_out num s1; s_comm := s_comm num s1 |}).
        { destruct (cells text) as [|[|a c] [|c2 cs]]; try reflexivity. inversion Hn; congruence. }
        rewrite Hf, H1, E1. cbn [rbind]. rewrite Hbr. cbn [rbind].
        edestruct (IH {| s_header := Some {| h_data := d1; h_idx := h_idx num h |}; s_check := false;
                         s_in := s_in num s1; s_out := s_out num s1; s_comm := s_comm num s1 |}
                      {| h_data := d1; h_idx := h_idx num h |}) as (d & E & F); [reflexivity|simpl; congruence|assumption|].
        exists d. cbn [h_data h_idx s_in s_out s_comm s_check] in E, F. rewrite E. split.
        * cbn [catopt]. rewrite H3, H4, H5, <- app_assoc. destruct (catopt os); reflexivity.
        * cbn [catopt]. change (row :: catopt os) with ([row] ++ catopt os).
          eapply cols_trans; [assumption| |exact F].
          revert F1. clear. apply Forall2_impl || idtac.
          intros F1. induction F1 as [|[i [n1 [u c]]] [n' [u' c']] l l' Hh Ht IH']; constructor; [exact Hh|exact IH'].
      + rewrite Hl. cbn [rbind].
        destruct (IH s1 h) as (d & E & F); [assumption|assumption|assumption|].
        exists d. rewrite E. split; [|exact F]. cbn [catopt].
        now rewrite H2, H3, H4, H5, <- app_assoc.
  Qed.

  Lemma read_pre md al lines : Forall blank lines ->
    forall s, read_lines md al s lines =
      Ok {| s_header := s_header num s; s_check := s_check num s; s_in := s_in num s; s_out := s_out num s;
            s_comm := s_comm num s ++ flat_map comment_of lines |}.
  Proof.
    induction 1 as [|line lines Hl Hls IH]; intros s.
    - simpl. rewrite app_nil_r. destruct s; reflexivity.
    - cbn [CsvModel.read_lines flat_map]. unfold CsvModel.read_line, comment_of at 1. unfold blank in Hl.
      destruct (cut_hash line) as [text comm]. cbn [fst snd] in *. rewrite Hl. cbn [rbind].
      rewrite IH. destruct comm; cbn; rewrite ?app_nil_r, <- ?app_assoc; reflexivity.
  Qed.

  Lemma read_app md al a b s : read_lines md al s (a ++ b) = rbind (read_lines md al s a) (fun s' => read_lines md al s' b).
  Proof.
    revert s. induction a as [|x a IH]; intros s; [reflexivity|]. cbn [app CsvModel.read_lines].
    destruct (read_line md al s x); cbn [rbind]; auto.
  Qed.

  Lemma numbered_bound {X} (os : list (option X)) i x : In x (numbered i os) -> i <= fst x < i + length os.
  Proof.
    revert i. induction os as [|[y|] os IH]; intros i; simpl; [tauto| |].
    - intros [<-|H]; simpl; [lia|]. apply IH in H. lia.
    - intros H. apply IH in H. lia.
  Qed.

  (** A column of the file: cell [j] of every row. *)
  Definition is_column (rows : list (list num)) (x : nat * (str * str * label)) (e : str * (str * list num)) : Prop :=
    match x, e with
    | (j, (n, u, _)), (n', (u', col)) => n' = n /\ u' = u /\ map Some col = map (fun r => nth_error r j) rows
    end.

  (** The whole reader: leading blank lines, the header line, then blank lines and rows. *)
  Lemma read_whole md al pre hline body hs hos bos :
    Forall blank pre ->
    cells (fst (cut_hash hline)) = hs -> to_floats hs = None ->
    Forall2 (fun c o => header_cell md al c = Ok o) hs hos ->
    numbered 0 hos <> [] ->
    NoDup (map entry_name (numbered 0 hos)) ->
    Forall2 (body_line (length hs)) body bos ->
    exists t, read_data_file md al (pre ++ hline :: body) =
                Ok (t, map entry_name (filter (labelled LInput) (numbered 0 hos)),
                       map entry_name (filter (labelled LOutput) (numbered 0 hos)),
                       flat_map comment_of (pre ++ hline :: body)) /\
              Forall2 (is_column (catopt bos)) (numbered 0 hos) t.
  Proof.
    intros Hpre Hhs Hnf Hparse Hne ND Hbody.
    unfold CsvModel.read_data_file. rewrite read_app, (read_pre md al pre Hpre). cbn [rbind CsvModel.read_lines].
    set (s1 := {| s_header := s_header num (st0 num); s_check := s_check num (st0 num); s_in := s_in num (st0 num);
                  s_out := s_out num (st0 num); s_comm := s_comm num (st0 num) ++ flat_map comment_of pre |}).
    set (h := {| h_data := map (fun x => (entry_name x, (snd (fst (snd x)), @nil num))) (numbered 0 hos);
                 h_idx := map fst (numbered 0 hos) |}).
    assert (Hline : read_line md al s1 hline =
              Ok {| s_header := Some h; s_check := false;
                    s_in := map entry_name (filter (labelled LInput) (numbered 0 hos));
                    s_out := map entry_name (filter (labelled LOutput) (numbered 0 hos));
                    s_comm := flat_map comment_of pre ++ comment_of hline |}).
    { unfold CsvModel.read_line, comment_of at 2. destruct (cut_hash hline) as [text comm] eqn:Ec. cbn [fst snd] in *.
      rewrite Hhs, Hnf.
      pose proof (header_cells_spec md al hs hos Hparse 0 {| h_data := []; h_idx := [] |} [] []) as Hh.
      cbn [h_data h_idx app map] in Hh. specialize (Hh ND).
      assert (Hnb : hs <> [[]]) by (intros ->; discriminate Hnf).
      assert (Hd : match h_data num h with [] => false | _ => true end = true).
      { unfold h. simpl. destruct (numbered 0 hos); [congruence|reflexivity]. }
      assert (Hgen : forall s2, s_check num s2 = true -> s_in num s2 = [] -> s_out num s2 = [] ->
        (match hs with
         | [[]] => Ok s2
         | _ => if s_check num s2 then
              rbind (header_cells md al 0 hs {| h_data := []; h_idx := [] |} (s_in num s2) (s_out num s2))
                (fun r => match r with (h, ins, outs) =>
                   match h_data num h with
                   | [] => Err ValueError
                   | _ => Ok {| s_header := Some h; s_check := false; s_in := ins; s_out := outs; s_comm := s_comm num s2 |}
                   end end)
            else Err ValueError
         end) = Ok {| s_header := Some h; s_check := false;
                    s_in := map entry_name (filter (labelled LInput) (numbered 0 hos));
                    s_out := map entry_name (filter (labelled LOutput) (numbered 0 hos));
                    s_comm := s_comm num s2 |}).
      { intros s2 E1 E2 E3. rewrite E1, E2, E3, Hh. cbn [rbind]. fold h.
        destruct (h_data num h); [discriminate|]. destruct hs as [|[|? ?] [|? ?]]; try reflexivity. now elim Hnb. }
      destruct comm as [c|].
      - rewrite Hgen; try reflexivity.
      - rewrite Hgen; try reflexivity. unfold s1. simpl. now rewrite app_nil_r. }
    rewrite Hline. cbn [rbind].
    destruct (read_body md al (length hs) body bos Hbody
                {| s_header := Some h; s_check := false;
                   s_in := map entry_name (filter (labelled LInput) (numbered 0 hos));
                   s_out := map entry_name (filter (labelled LOutput) (numbered 0 hos));
                   s_comm := flat_map comment_of pre ++ comment_of hline |} h) as (d & E & F); [reflexivity| | |].
    - unfold h. simpl. now rewrite !map_length.
    - unfold h. simpl. apply Forall_forall. intros i Hi. apply in_map_iff in Hi as (x & <- & Hx).
      apply numbered_bound in Hx. rewrite (Forall2_len _ _ _ Hparse). lia.
    - rewrite E. cbn [rbind s_header s_in s_out s_comm h_data]. exists d. split.
      + rewrite flat_map_app. cbn [flat_map]. now rewrite <- app_assoc.
      + unfold h in F. cbn [h_data h_idx] in F. clear -F.
        revert d F. generalize (numbered 0 hos) as l. induction l as [|[j [[n u] lb]] l IH]; intros d F; simpl in F.
        * inversion F. constructor.
        * inversion F as [|? [n' [u' c']] ? d' Hh Ht]; subst. destruct Hh as (-> & -> & (add & -> & Hadd)).
          constructor; [|now apply IH]. repeat split. exact Hadd.
  Qed.
End R.

(** A row with fewer numbers than the last recognised column needs is rejected. *)
Lemma short_row (num : Type) d idx (row : list num) :
  length d = length idx -> (exists i, In i idx /\ length row <= i) -> append_row num d idx row = Err IndexError.
Proof.
  revert idx. induction d as [|[n [u col]] d IH]; intros [|i idx] Hl (j & Hin & Hj); simpl in *; try discriminate; try tauto.
  destruct Hin as [->|Hin].
  - now rewrite (proj2 (nth_error_None row j) Hj).
  - destruct (nth_error row i); [|reflexivity]. rewrite IH; [reflexivity|congruence|eauto].
Qed.
Lemma short_row_line (num : Type) fl valid_units is_compat md al s h line row :
  s_header num s = Some h -> length (h_data num h) = length (h_idx num h) ->
  cells (fst (cut_hash line)) <> [[]] ->
  to_floats num fl (cells (fst (cut_hash line))) = Some row ->
  (exists i, In i (h_idx num h) /\ length row <= i) ->
  read_line num fl valid_units is_compat md al s line = Err IndexError.
Proof.
  intros Hs Hl Hb Hf Hsh. unfold read_line. destruct (cut_hash line) as [text comm]. cbn [fst snd] in *.
  rewrite Hf.
  assert (E : forall (s1 : st num) (r : res (st num)), r = Err IndexError ->
              match cells text with [[]] => Ok s1 | _ => r end = Err IndexError).
  { intros s1 r ->. destruct (cells text) as [|[|? ?] [|? ?]]; try reflexivity. now elim Hb. }
  apply E. destruct comm; cbn [s_header]; rewrite Hs, short_row; auto.
Qed.

(** ** Concrete instances for the witnesses: numbers are natural numbers below ten, one digit each. *)
Definition digit_fl (s : str) : option nat :=
  match s with
  | [c] => let n := nat_of_ascii c in if (Nat.leb 48 n && Nat.leb n 57)%bool then Some (n - 48) else None
  | _ => None
  end.
Definition bit_show (b : bool) : str := if b then lit "1.0" else lit "-2.5e-3".
Definition bit_fl (s : str) : option bool :=
  if str_eqb s (lit "1.0") then Some true else if str_eqb s (lit "-2.5e-3") then Some false else None.
Definition some_units (s : str) : bool := existsb (fun u => str_eqb s (lit u)) ["m"; "ft"; "lbm/(ft*s)"; "kg"].
Definition any_compat (_ _ : str) : bool := true.

Lemma blank_cell_shifts :
  read_data_file nat digit_fl some_units any_compat None [] [lit "a, b, c"; lit "1, , 3"; lit "4, 5, 6, 7"]
  = Err IndexError /\
  read_data_file nat digit_fl some_units any_compat (Some [(lit "a", lit "m"); (lit "b", lit "m")]) [] [lit "a, b, c"; lit "1, , 3"]
  = Ok ([(lit "a", (lit "m", [1])); (lit "b", (lit "m", [3]))], [], [], []).
Proof. split; vm_compute; reflexivity. Qed.

Lemma repeated_name_shifts :
  read_data_file nat digit_fl some_units any_compat None [] [lit "a, a, b"; lit "1, 2, 3"]
  = Ok ([(lit "a", (lit "unitless", [1])); (lit "b", (lit "unitless", [2]))], [], [], []).
Proof. vm_compute; reflexivity. Qed.
