(** Proofs about the Fortran deck converter. *)
From Coq Require Import Ascii QArith Lia.
From Verif Require Import Base CsvModel StrModel ForModel.
Open Scope list_scope.
Open Scope nat_scope.

(** ** Splitting *)
Lemma split_on_none p : forall l cur, (forall c, In c l -> p c = false) -> split_on p cur l = [rev cur ++ l].
Proof.
  induction l as [|c l IH]; intros cur H; cbn; [now rewrite app_nil_r|].
  rewrite (H c) by now left. rewrite IH by (intros; apply H; now right). cbn. now rewrite <- app_assoc.
Qed.
Lemma split_on_app p c b : p c = true -> forall a cur, (forall x, In x a -> p x = false) ->
  split_on p cur (a ++ c :: b) = (rev cur ++ a) :: split_on p [] b.
Proof.
  intros Hc. induction a as [|x a IH]; intros cur H; cbn.
  - rewrite Hc, app_nil_r. reflexivity.
  - rewrite (H x) by now left. rewrite IH by (intros; apply H; now right). cbn. now rewrite <- app_assoc.
Qed.
Lemma cut_at_none p l : (forall c, In c l -> p c = false) -> cut_at p l = (l, None).
Proof. induction l as [|c l IH]; intro H; cbn; [reflexivity|]. rewrite (H c), IH; [reflexivity| |now left]. intros; apply H; now right. Qed.
Lemma cut_at_app p c b : p c = true -> forall a, (forall x, In x a -> p x = false) -> cut_at p (a ++ c :: b) = (a, Some b).
Proof.
  intros Hc. induction a as [|x a IH]; intro H; cbn; [now rewrite Hc|].
  rewrite (H x), IH; [reflexivity| |now left]. intros; apply H; now right.
Qed.

Lemma commas_cons a b l : commas (a :: b :: l) = a ++ ","%char :: commas (b :: l).
Proof. reflexivity. Qed.

Definition free_of (p : ascii -> bool) (s : str) : Prop := forall c, In c s -> p c = false.

Lemma split_commas : forall vals w, vals <> [] -> Forall (free_of is_comma) vals -> free_of is_comma w ->
  split_on is_comma [] (commas vals ++ w) = removelast vals ++ [last vals [] ++ w].
Proof.
  induction vals as [|v vals IH]; intros w N F W; [congruence|]. apply Forall_cons_iff in F as [Fv F].
  destruct vals as [|v2 vals].
  - cbn [commas map concat removelast last app]. rewrite app_nil_r. apply split_on_none.
    intros c Hc. apply in_app_iff in Hc as [Hc|Hc]; auto.
  - rewrite commas_cons, <- app_assoc, <- app_comm_cons, split_on_app by (auto; reflexivity).
    rewrite IH by (auto; discriminate). reflexivity.
Qed.

(** ** White space, comments and trailing commas *)
Definition visible (c : ascii) : bool := negb (is_ws c).
(** [line] is [t] with white space anywhere, commas at the end and possibly a comment. *)
Definition layout (line t : str) : Prop := exists body comment k,
  line = body ++ comment /\ ~ In "!"%char body /\ (comment = [] \/ exists c, comment = "!"%char :: c) /\
  filter visible body = t ++ repeat ","%char k.

Lemma drop_while_none p l : match l with [] => True | c :: _ => p c = false end -> drop_while p l = l.
Proof. destruct l as [|c l]; [reflexivity|]. intro H. cbn. now rewrite H. Qed.
Lemma drop_while_repeat p c k l : p c = true -> drop_while p (repeat c k ++ l) = drop_while p l.
Proof. intro H. induction k as [|k IH]; [reflexivity|]. cbn. now rewrite H. Qed.
Lemma rev_repeat {B} (c : B) k : rev (repeat c k) = repeat c k.
Proof.
  induction k as [|k IH]; [reflexivity|]. cbn [repeat rev]. rewrite IH. clear IH. induction k as [|k IH]; [reflexivity|].
  cbn [repeat app]. now rewrite IH.
Qed.
Lemma rstrip_repeat p c k t : p c = true -> (t = [] \/ p (last t c) = false) -> rstrip_of p (t ++ repeat c k) = t.
Proof.
  intros Hc Ht. unfold rstrip_of. rewrite rev_app_distr, rev_repeat, drop_while_repeat by exact Hc.
  rewrite drop_while_none, rev_involutive; [reflexivity|]. destruct Ht as [-> | Ht]; [exact I|].
  destruct t as [|x t _] using rev_ind; [exact I|]. rewrite rev_app_distr. cbn. now rewrite last_last in Ht.
Qed.
Lemma not_in_free c s : ~ In c s -> free_of (is_char c) s.
Proof.
  intros H x Hx. unfold is_char. destruct (Ascii.eqb c x) eqn:E; [|reflexivity]. apply Ascii.eqb_eq in E. subst. contradiction.
Qed.
Lemma squeeze_layout line t : layout line t -> (t = [] \/ last t ","%char <> ","%char) -> squeeze line = t.
Proof.
  intros (body & comment & k & -> & Nb & Hc & F) Ht. unfold squeeze.
  assert (C : fst (cut_at (is_char "!") (body ++ comment)) = body).
  { destruct Hc as [-> | [c ->]].
    - rewrite app_nil_r, cut_at_none; [reflexivity|]. now apply not_in_free.
    - rewrite cut_at_app; [reflexivity|reflexivity|]. now apply not_in_free. }
  rewrite C. unfold visible in F. rewrite F. apply rstrip_repeat; [reflexivity|]. destruct Ht as [-> | Ht]; [now left|right].
  unfold is_comma. apply Ascii.eqb_neq. exact Ht.
Qed.

(** ** Assignments of a line *)
(** [a_comma]: whether the values are followed by a comma when another assignment follows on the line. *)
Record asg := { a_name : str; a_vals : list str; a_comma : bool }.
Definition asg_text (a : asg) : str := a_name a ++ "="%char :: commas (a_vals a).
Fixpoint line_text (l : list asg) : str :=
  match l with
  | [] => []
  | a :: r => match r with [] => asg_text a | _ => asg_text a ++ (if a_comma a then [","%char] else []) ++ line_text r end
  end.
Definition event_of (a : asg) : str * str := (a_name a, commas (a_vals a)).

(** characters of names and values *)
Definition plain (c : ascii) : bool := negb (is_ws c || is_comma c || is_eq c || is_char "!" c).
Definition word (s : str) : Prop := s <> [] /\ forall c, In c s -> plain c = true.
Definition good_asg (a : asg) : Prop :=
  (exists c r, a_name a = c :: r /\ is_alpha c = true) /\ word (a_name a) /\ a_vals a <> [] /\ Forall word (a_vals a) /\
  (a_comma a = false -> free_of is_alpha (last (a_vals a) [])).

Lemma word_comma s : word s -> free_of is_comma s.
Proof. intros [_ H] c Hc. specialize (H c Hc). unfold plain in H. destruct (is_comma c); [|reflexivity]. now rewrite orb_true_r in H. Qed.
Lemma word_eq s : word s -> free_of is_eq s.
Proof. intros [_ H] c Hc. specialize (H c Hc). unfold plain in H. destruct (is_eq c); [|reflexivity]. now rewrite orb_true_r in H. Qed.
Lemma commas_free p : p ","%char = false -> forall l, Forall (free_of p) l -> free_of p (commas l).
Proof.
  intro Hp. induction l as [|a l IH]; intro F; [intros c []|]. apply Forall_cons_iff in F as [Fa F]. destruct l as [|b l].
  - cbn. rewrite app_nil_r. exact Fa.
  - rewrite commas_cons. intros c Hc. apply in_app_iff in Hc as [Hc|[<-|Hc]]; [now apply Fa|exact Hp|now apply IH].
Qed.

Fixpoint tails (a : asg) (r : list asg) : list str :=
  match r with
  | [] => [commas (a_vals a)]
  | b :: r' => (commas (a_vals a) ++ (if a_comma a then [","%char] else []) ++ a_name b) :: tails b r'
  end.
Lemma split_line : forall r a, good_asg a -> Forall good_asg r -> split_on is_eq [] (line_text (a :: r)) = a_name a :: tails a r.
Proof.
  induction r as [|b r IH]; intros a Ga Gr.
  - cbn [line_text tails]. unfold asg_text. destruct Ga as (_ & W & _ & V & _).
    rewrite split_on_app; [|reflexivity|now apply word_eq]. cbn [rev app]. f_equal. rewrite split_on_none; [reflexivity|].
    apply commas_free; [reflexivity|]. eapply Forall_impl; [|exact V]. intros s Hs. now apply word_eq.
  - apply Forall_cons_iff in Gr as [Gb Gr].
    change (line_text (a :: b :: r)) with (asg_text a ++ (if a_comma a then [","%char] else []) ++ line_text (b :: r)).
    unfold asg_text. destruct Ga as (_ & W & _ & V & _).
    rewrite <- app_assoc, <- app_comm_cons, split_on_app; [|reflexivity|now apply word_eq]. cbn [rev app tails]. f_equal.
    specialize (IH b Gb Gr).
    assert (P : forall pre, free_of is_eq pre -> split_on is_eq [] (pre ++ line_text (b :: r)) = (pre ++ a_name b) :: tails b r).
    { intros pre Hp. destruct Gb as (_ & Wb & _).
      assert (L : exists w, line_text (b :: r) = a_name b ++ "="%char :: w).
      { destruct r; cbn [line_text]; unfold asg_text; rewrite <- ?app_assoc; eexists; reflexivity. }
      destruct L as [w L]. rewrite L in *. rewrite app_assoc, split_on_app; [|reflexivity|].
      - rewrite split_on_app in IH; [|reflexivity|now apply word_eq]. cbn [rev app] in *. injection IH as IH. now rewrite IH.
      - intros c Hc. apply in_app_iff in Hc as [Hc|Hc]; [now apply Hp|]. now apply (word_eq _ Wb). }
    rewrite app_assoc. rewrite P; [now rewrite <- app_assoc|].
    intros c Hc. apply in_app_iff in Hc as [Hc|Hc].
    + revert c Hc. apply commas_free; [reflexivity|]. eapply Forall_impl; [|exact V]. intros s Hs. now apply word_eq.
    + destruct (a_comma a); [|destruct Hc]. destruct Hc as [<-|[]]. reflexivity.
Qed.

Lemma until_alpha_app a c r : free_of is_alpha a -> is_alpha c = true -> until_alpha (a ++ c :: r) = (a, c :: r).
Proof.
  intros F H. induction a as [|x a IH]; cbn [app until_alpha]; [now rewrite H|]. rewrite (F x) by now left.
  rewrite IH by (intros y Hy; apply F; now right). reflexivity.
Qed.
Lemma Forall_last {B} (P : B -> Prop) l d : l <> [] -> Forall P l -> P (last l d).
Proof.
  intros N F. induction l as [|x l IH]; [congruence|]. apply Forall_cons_iff in F as [Fx F]. destruct l; [exact Fx|].
  apply IH; [discriminate|exact F].
Qed.
Lemma removelast_last {B} (l : list B) d : l <> [] -> removelast l ++ [last l d] = l.
Proof. intro N. symmetry. now apply app_removelast_last. Qed.

Lemma pairs_tails : forall r a, good_asg a -> Forall good_asg r -> pairs (a_name a) (tails a r) = (map event_of (a :: r), None).
Proof.
  induction r as [|b r IH]; intros a Ga Gr; [reflexivity|]. apply Forall_cons_iff in Gr as [Gb Gr]. specialize (IH b Gb Gr).
  cbn [tails pairs]. destruct (tails b r) as [|tb tr] eqn:T; [now destruct r|]. rewrite <- T in *. clear T tb tr.
  destruct Ga as (_ & _ & Nv & V & Hsep).
  assert (Vc : Forall (free_of is_comma) (a_vals a)) by (eapply Forall_impl; [|exact V]; intros s Hs; now apply word_comma).
  pose proof Gb as ((c & nm & En & Ac) & Wb & _). pose proof (word_comma _ Wb) as Fb.
  assert (K : split_on is_comma [] (commas (a_vals a) ++ (if a_comma a then [","%char] else []) ++ a_name b) =
              if a_comma a then a_vals a ++ [a_name b] else removelast (a_vals a) ++ [last (a_vals a) [] ++ a_name b]).
  { destruct (a_comma a).
    - cbn [app]. assert (Q : commas (a_vals a) ++ ","%char :: a_name b = commas (a_vals a ++ [a_name b]) ++ []).
      { rewrite app_nil_r. clear -Nv. induction (a_vals a) as [|x l IH]; [congruence|]. destruct l as [|y l].
        - cbn. now rewrite !app_nil_r.
        - cbn [app] in *. rewrite !commas_cons, <- app_assoc, <- app_comm_cons. f_equal. f_equal. apply IH. discriminate. }
      rewrite Q, split_commas.
      + rewrite app_nil_r. apply removelast_last. intro Hx. now apply app_eq_nil in Hx as [_ Hx].
      + intro Hx. now apply app_eq_nil in Hx as [_ Hx].
      + apply Forall_app. split; [exact Vc|]. constructor; [exact Fb|constructor].
      + intros x [].
    - cbn [app]. now apply split_commas. }
  rewrite K. clear K. destruct (a_comma a).
  - rewrite last_last. rewrite En. rewrite Ac, <- En, IH.
    rewrite removelast_app by discriminate. cbn [removelast]. rewrite app_nil_r. reflexivity.
  - rewrite last_last. specialize (Hsep eq_refl). pose proof (Forall_last _ _ [] Nv V) as [Nl _].
    destruct (last (a_vals a) []) as [|x xs] eqn:EL; [first [elim (Nl EL)|elim (Nl eq_refl)]|]. cbn [app]. rewrite (Hsep x) by now left.
    change (x :: xs ++ a_name b) with ((x :: xs) ++ a_name b). rewrite En, until_alpha_app by assumption. cbn [fst snd].
    rewrite <- En, IH. rewrite removelast_app by discriminate. cbn [removelast]. rewrite app_nil_r, <- EL.
    rewrite removelast_last by exact Nv. reflexivity.
Qed.

Lemma assignments_line l : Forall good_asg l -> assignments (line_text l) = (map event_of l, None).
Proof.
  intro G. unfold assignments. destruct l as [|a r]; [reflexivity|]. apply Forall_cons_iff in G as [Ga Gr].
  rewrite split_line by assumption. now apply pairs_tails.
Qed.
Lemma assignments_none s : free_of is_eq s -> assignments s = ([], None).
Proof. intro F. unfold assignments. rewrite split_on_none by exact F. reflexivity. Qed.

(** ** Whole decks *)
Inductive ending := Tagged (w : str) | Slash (l : list asg).
Inductive part := Free (l : list asg) | Block (t : ascii) (name : str) (ls : list (list asg)) (e : ending).
Definition part_lines (p : part) : list str :=
  match p with
  | Free l => [line_text l]
  | Block t name ls e =>
      (t :: name) :: map line_text ls ++ [match e with Tagged w => t :: w | Slash l => line_text l ++ ["/"%char] end]
  end.
Definition events_in (name : str) (l : list asg) : list (str * str * str) := map (fun a => (name, a_name a, commas (a_vals a))) l.
Definition part_events (p : part) : list (str * str * str) :=
  match p with
  | Free l => events_in [] l
  | Block t name ls e => events_in name (concat ls ++ match e with Tagged _ => [] | Slash l => l end)
  end.
Definition good_line (l : list asg) : Prop := l <> [] /\ Forall good_asg l /\ last (line_text l) "/"%char <> "/"%char.
Definition good_part (p : part) : Prop :=
  match p with
  | Free l => good_line l
  | Block t name ls e =>
      is_tag t = true /\ word name /\ ~ In t name /\ Forall good_line ls /\
      match e with
      | Tagged w => forall c, In c w -> plain c = true
      | Slash l => Forall good_asg l /\ ~ In "/"%char (line_text l)
      end
  end.

(** The lines of a file: every text in some layout, with empty lines and comments anywhere. *)
Inductive laid_out : list str -> list str -> Prop :=
| lo_nil : laid_out [] []
| lo_blank line ls ts : layout line [] -> laid_out ls ts -> laid_out (line :: ls) ts
| lo_line line t ls ts : t <> [] -> layout line t -> laid_out ls ts -> laid_out (line :: ls) (t :: ts).

Section Run.
  Context {A : Type}.
  Variable store : str -> str -> str -> A -> res A.
  (** the events one after the other *)
  Fixpoint run (evs : list (str * str * str)) (a : A) : res A :=
    match evs with
    | [] => Ok a
    | (n, v, d) :: r =>
        match store n v d a with
        | Ok a' => run r a'
        | Err e => Err (match n with [] => RuntimeError | _ => e end)
        end
    end.
  Lemma store_all_run n l : forall a, store_all store n (map event_of l) a = run (events_in n l) a.
  Proof. induction l as [|x l IH]; intro a; [reflexivity|]. cbn. destruct (store n (a_name x) (commas (a_vals x)) a); [apply IH|reflexivity]. Qed.
  Lemma run_app e1 e2 a : run (e1 ++ e2) a = rbind (run e1 a) (run e2).
  Proof. revert a. induction e1 as [|[[n v] d] e1 IH]; intro a; [reflexivity|]. cbn. destruct (store n v d a); [apply IH|reflexivity]. Qed.
  Lemma events_in_app n l1 l2 : events_in n (l1 ++ l2) = events_in n l1 ++ events_in n l2.
  Proof. apply map_app. Qed.

  Lemma parse_line_squeezed s line t : squeeze line = t -> t <> [] ->
    parse_line store s line = (let '(namelist, tag, a) := s in
      rbind (track namelist tag t) (fun q => let '(n', t', l', fin) := q in
        let p := assignments l' in
        rbind (store_all store n' (fst p) a) (fun a' =>
        match snd p with Some e => Err e | None => Ok (if fin then ([], None, a') else (n', t', a')) end))).
  Proof. intros E N. destruct s as [[n g] a]. unfold parse_line. rewrite E. destruct t; [congruence|reflexivity]. Qed.

  Lemma last_plain s d : word s -> plain (last s d) = true.
  Proof. intros [N H]. apply H. destruct s as [|x s _] using rev_ind; [congruence|]. rewrite last_last. apply in_app_iff. right. now left. Qed.
  Lemma last_app {B} (l m : list B) d : m <> [] -> last (l ++ m) d = last m d.
  Proof.
    intro N. induction l as [|x l IH]; [reflexivity|]. cbn [app last]. destruct (l ++ m) eqn:E; [|exact IH].
    apply app_eq_nil in E as [_ E]. congruence.
  Qed.
  Lemma last_cons {B} (x : B) m d : m <> [] -> last (x :: m) d = last m d.
  Proof. destruct m; [congruence|reflexivity]. Qed.
  Lemma last_commas l d : l <> [] -> Forall word l -> commas l <> [] /\ plain (last (commas l) d) = true.
  Proof.
    induction l as [|v l IH]; intros N F; [congruence|]. apply Forall_cons_iff in F as [Fv F]. destruct l as [|v2 l].
    - cbn. rewrite app_nil_r. split; [apply Fv|]. now apply last_plain.
    - rewrite commas_cons. destruct IH as [I1 I2]; [discriminate|exact F|]. split; [now destruct v|].
      rewrite last_app by discriminate. rewrite last_cons by exact I1. exact I2.
  Qed.
  Lemma last_line l d : l <> [] -> Forall good_asg l -> line_text l <> [] /\ plain (last (line_text l) d) = true.
  Proof.
    induction l as [|a l IH]; intros N F; [congruence|]. apply Forall_cons_iff in F as [(_ & _ & Nv & V & _) F].
    destruct (last_commas _ d Nv V) as [C1 C2]. destruct l as [|b l].
    - cbn. unfold asg_text. split; [intro Hx; now apply app_eq_nil in Hx as [_ Hx]|].
      rewrite last_app by discriminate. now rewrite last_cons.
    - change (line_text (a :: b :: l)) with (asg_text a ++ (if a_comma a then [","%char] else []) ++ line_text (b :: l)).
      destruct IH as [I1 I2]; [discriminate|exact F|]. split.
      + intro Hx. apply app_eq_nil in Hx as [_ Hx]. now apply app_eq_nil in Hx as [_ Hx].
      + rewrite app_assoc. now rewrite last_app.
  Qed.
  Lemma plain_not_comma c : plain c = true -> c <> ","%char.
  Proof. intros H ->. discriminate. Qed.
  Lemma first_line l : l <> [] -> Forall good_asg l -> exists c r, line_text l = c :: r /\ is_alpha c = true.
  Proof.
    destruct l as [|a l]; intros N F; [congruence|]. apply Forall_cons_iff in F as [((c & r & E & A') & _) _].
    destruct l; cbn [line_text]; unfold asg_text; rewrite E; cbn [app]; eexists; eexists; (split; [reflexivity|exact A']).
  Qed.
  Lemma alpha_not_tag c : is_alpha c = true -> is_tag c = false.
  Proof.
    intro H. unfold is_tag, is_char. destruct (Ascii.eqb "$" c) eqn:E; [apply Ascii.eqb_eq in E; subst; discriminate|].
    destruct (Ascii.eqb "&" c) eqn:E2; [apply Ascii.eqb_eq in E2; subst; discriminate|]. reflexivity.
  Qed.
  Lemma tag_neq t c : is_tag t = true -> is_tag c = false -> Ascii.eqb t c = false.
  Proof. intros H1 H2. apply Ascii.eqb_neq. intros ->. congruence. Qed.

  Definition tag_ok (tag : option ascii) : Prop := match tag with Some t => is_tag t = true | None => True end.
  Lemma line_step n tag a line l : good_line l -> tag_ok tag -> layout line (line_text l) ->
    parse_line store (n, tag, a) line = rbind (run (events_in n l) a) (fun a' => Ok (n, tag, a')).
  Proof.
    intros (N & G & S) T L. destruct (last_line l ","%char N G) as [NE LP].
    pose proof (squeeze_layout _ _ L (or_intror (plain_not_comma _ LP))) as Sq. rewrite (parse_line_squeezed _ _ _ Sq NE).
    destruct (first_line l N G) as (c & r & E & Al). pose proof (alpha_not_tag _ Al) as Nt.
    assert (TR : track n tag (line_text l) = Ok (n, tag, line_text l, false)).
    { unfold track. rewrite E at 1. rewrite Nt. cbn [andb].
      assert (S' : is_slash (last (line_text l) "000"%char) = false).
      { unfold is_slash, is_char. apply Ascii.eqb_neq. intro Q. apply S. revert Q NE. clear.
        destruct (line_text l) as [|x m _] using rev_ind; [congruence|]. rewrite !last_last. intros <- _. reflexivity. }
      rewrite S', orb_false_r. destruct tag as [t|]; [rewrite (tag_neq t c) by assumption|]; reflexivity. }
    rewrite TR. cbn [rbind]. rewrite assignments_line by exact G. cbn [fst snd]. now rewrite store_all_run.
  Qed.
  Lemma blank_step s line : layout line [] -> parse_line store s line = Ok s.
  Proof. intro L. destruct s as [[n g] a]. unfold parse_line. now rewrite (squeeze_layout _ _ L (or_introl eq_refl)). Qed.
  Lemma free_tag t s : ~ In t s -> free_of (is_char t) s.
  Proof. apply not_in_free. Qed.
  Lemma tag_plain t : is_tag t = true -> plain t = true.
  Proof.
    unfold is_tag, is_char. destruct (Ascii.eqb "$" t) eqn:E; [apply Ascii.eqb_eq in E; subst; reflexivity|].
    destruct (Ascii.eqb "&" t) eqn:E2; [apply Ascii.eqb_eq in E2; subst; reflexivity|discriminate].
  Qed.
  Lemma open_step a t name line : is_tag t = true -> word name -> ~ In t name -> layout line (t :: name) ->
    parse_line store ([], None, a) line = Ok (name, Some t, a).
  Proof.
    intros T W N L. pose proof W as [Nn _].
    assert (LP : plain (last (t :: name) ","%char) = true) by (rewrite last_cons by exact Nn; now apply last_plain).
    pose proof (squeeze_layout _ _ L (or_intror (plain_not_comma _ LP))) as Sq. rewrite (parse_line_squeezed _ _ _ Sq) by discriminate.
    unfold track. rewrite T. cbn [andb].
    change (t :: name) with ([] ++ t :: name). rewrite split_on_app; [|apply Ascii.eqb_refl|intros x []].
    rewrite split_on_none by now apply free_tag. cbn [rev app]. destruct name as [|x name]; [congruence|]. cbn [rbind].
    rewrite assignments_none; [reflexivity|]. intros c [<-|Hc].
    - pose proof (tag_plain _ T) as P. unfold plain in P. destruct (is_eq t); [now rewrite orb_true_r in P|reflexivity].
    - now apply (word_eq (x :: name)).
  Qed.
  Lemma close_tag_step n t a w line : is_tag t = true -> (forall c, In c w -> plain c = true) -> layout line (t :: w) ->
    parse_line store (n, Some t, a) line = Ok ([], None, a).
  Proof.
    intros T W L. assert (Wt : word (t :: w)).
    { split; [discriminate|]. intros c [<-|Hc]; [now apply tag_plain|now apply W]. }
    pose proof (squeeze_layout _ _ L (or_intror (plain_not_comma _ (last_plain _ _ Wt)))) as Sq.
    rewrite (parse_line_squeezed _ _ _ Sq) by discriminate. unfold track. rewrite T. cbn [andb].
    rewrite Ascii.eqb_refl. cbn [orb rbind]. rewrite assignments_none; [reflexivity|].
    intros c Hc. apply filter_In in Hc as [Hc _]. now apply (word_eq _ Wt).
  Qed.
  Lemma filter_id {B} (p : B -> bool) l : (forall x, In x l -> p x = true) -> filter p l = l.
  Proof. induction l as [|x l IH]; intro H; [reflexivity|]. cbn. rewrite (H x) by now left. f_equal. apply IH. intros; apply H; now right. Qed.
  Lemma close_slash_step n tag a l line : tag_ok tag -> Forall good_asg l -> ~ In "/"%char (line_text l) ->
    layout line (line_text l ++ ["/"%char]) ->
    parse_line store (n, tag, a) line = rbind (run (events_in n l) a) (fun a' => Ok ([], None, a')).
  Proof.
    intros T G N L. set (t := line_text l ++ ["/"%char]) in *. assert (NE : t <> []) by (unfold t; destruct (line_text l); discriminate).
    assert (Sq : squeeze line = t).
    { apply (squeeze_layout _ _ L). right. unfold t. rewrite last_last. discriminate. }
    rewrite (parse_line_squeezed _ _ _ Sq NE).
    assert (TR : track n tag t = Ok (n, tag, line_text l, true)).
    { assert (F : exists c r, t = c :: r /\ is_tag c = false).
      { unfold t. destruct l as [|x l']; [exists "/"%char, []; split; reflexivity|].
        destruct (first_line (x :: l') ltac:(discriminate) G) as (c' & r' & E & Al). rewrite E.
        exists c', (r' ++ ["/"%char]). split; [reflexivity|]. now apply alpha_not_tag. }
      destruct F as (c & r & F & Nt). unfold track. rewrite F at 1. rewrite Nt. cbn [andb]. unfold t. rewrite last_last.
      change (is_slash "/"%char) with true. rewrite orb_true_r.
      do 2 f_equal. rewrite filter_app. cbn [filter]. change (is_slash "/"%char) with true. cbn [negb]. rewrite app_nil_r.
      f_equal. apply filter_id. intros x Hx. unfold is_slash. now rewrite (not_in_free _ _ N x Hx). }
    rewrite TR. cbn [rbind]. rewrite assignments_line by exact G. cbn [fst snd]. now rewrite store_all_run.
  Qed.

  Lemma laid_out_app : forall ts1 ts2 ls, laid_out ls (ts1 ++ ts2) -> exists l1 l2, ls = l1 ++ l2 /\ laid_out l1 ts1 /\ laid_out l2 ts2.
  Proof.
    intros ts1 ts2 ls H. remember (ts1 ++ ts2) as ts eqn:E. revert ts1 E. induction H as [|line ls ts B H IH|line t ls ts N B H IH]; intros ts1 E.
    - symmetry in E. apply app_eq_nil in E as [-> ->]. exists [], []. repeat constructor.
    - destruct (IH ts1 E) as (l1 & l2 & -> & H1 & H2). exists (line :: l1), l2. split; [reflexivity|]. split; [now constructor|exact H2].
    - destruct ts1 as [|t1 ts1]; cbn in E.
      + subst ts2. exists [], (line :: ls). split; [reflexivity|]. split; constructor; assumption.
      + injection E as <- E. destruct (IH ts1 E) as (l1 & l2 & -> & H1 & H2). exists (line :: l1), l2.
        split; [reflexivity|]. split; [now constructor|exact H2].
  Qed.
  Lemma parse_lines_app l1 l2 s : parse_lines store s (l1 ++ l2) = rbind (parse_lines store s l1) (fun s' => parse_lines store s' l2).
  Proof. revert s. induction l1 as [|x l1 IH]; intro s; [reflexivity|]. cbn. destruct (parse_line store s x); [apply IH|reflexivity]. Qed.

  (** one text: blank lines around it do not matter *)
  Lemma one_text t ls s (f : pstate (A := A) -> res pstate) : laid_out ls [t] -> (forall line, layout line t -> parse_line store s line = f s) ->
    parse_lines store s ls = f s.
  Proof.
    intros H K. remember [t] as ts eqn:E. revert E. induction H as [|line ls ts B H IH|line t' ls ts N B H IH]; intro E; [discriminate| |].
    - cbn [parse_lines]. rewrite blank_step by exact B. now apply IH.
    - injection E as -> ->. cbn. rewrite K by exact B. clear -H. destruct (f s) as [s'|e]; [|reflexivity]. cbn.
      remember [] as ts eqn:E. revert E. induction H as [|line ls ts B H IH|]; intro E; [reflexivity| |discriminate].
      cbn [parse_lines]. rewrite blank_step by exact B. now apply IH.
  Qed.
  Lemma body_lines n tag : tag_ok tag -> forall lss ls a, Forall good_line lss -> laid_out ls (map line_text lss) ->
    parse_lines store (n, tag, a) ls = rbind (run (events_in n (concat lss)) a) (fun a' => Ok (n, tag, a')).
  Proof.
    intro T. induction lss as [|l lss IH]; intros ls a G H; cbn [map concat] in *.
    - cbn. clear -H. remember [] as ts eqn:E. revert E. induction H as [|line ls ts B H IH|]; intro E; [reflexivity| |discriminate].
      cbn [parse_lines]. rewrite blank_step by exact B. now apply IH.
    - apply Forall_cons_iff in G as [Gl G]. change (line_text l :: map line_text lss) with ([line_text l] ++ map line_text lss) in H.
      apply laid_out_app in H as (l1 & l2 & -> & H1 & H2). rewrite parse_lines_app.
      rewrite (one_text _ _ _ (fun s => rbind (run (events_in n l) (snd s)) (fun a' => Ok (n, tag, a'))) H1)
        by (intros line L; now apply line_step).
      cbn [snd]. rewrite events_in_app, run_app. destruct (run (events_in n l) a) as [a'|e]; [|reflexivity]. cbn [rbind]. now apply IH.
  Qed.
  Lemma part_step p ls a : good_part p -> laid_out ls (part_lines p) ->
    parse_lines store ([], None, a) ls = rbind (run (part_events p) a) (fun a' => Ok ([], None, a')).
  Proof.
    intros G H. destruct p as [l|t name lss e]; cbn [part_lines part_events] in *.
    - change [line_text l] with (map line_text [l]) in H. etransitivity; [apply (body_lines [] None I [l] ls a (Forall_cons l (G : good_line l) (Forall_nil good_line)) H)|].
      cbn [concat]. now rewrite app_nil_r.
    - destruct G as (T & W & N & Gl & Ge).
      match goal with H : laid_out _ ((t :: name) :: map line_text lss ++ [?x]) |- _ =>
        change (laid_out ls ([t :: name] ++ map line_text lss ++ [x])) in H end.
      apply laid_out_app in H as (l1 & l2 & -> & H1 & H2). apply laid_out_app in H2 as (l3 & l4 & -> & H3 & H4).
      rewrite !parse_lines_app.
      rewrite (one_text _ _ _ (fun s => Ok (name, Some t, snd s)) H1) by (intros line L; now apply open_step). cbn [rbind snd].
      rewrite parse_lines_app, (body_lines name (Some t) T lss l3 a Gl H3). rewrite events_in_app, run_app.
      destruct (run (events_in name (concat lss)) a) as [a'|er]; [|reflexivity]. cbn [rbind]. destruct e as [w|l].
      + rewrite (one_text _ _ _ (fun s => Ok ([], None, snd s)) H4) by (intros line L; eapply close_tag_step; eauto). reflexivity.
      + destruct Ge as [Ge Ns].
        rewrite (one_text _ _ _ (fun s => rbind (run (events_in name l) (snd s)) (fun a' => Ok ([], None, a'))) H4)
          by (intros line L; now apply close_slash_step). reflexivity.
  Qed.
  Lemma deck_lines : forall d ls a, Forall good_part d -> laid_out ls (concat (map part_lines d)) ->
    parse_lines store ([], None, a) ls = rbind (run (concat (map part_events d)) a) (fun a' => Ok ([], None, a')).
  Proof.
    induction d as [|p d IH]; intros ls a G H; cbn [map concat] in *.
    - change (@nil str) with (map line_text []) in H. apply (body_lines [] None I [] ls a) in H; [exact H|constructor].
    - apply Forall_cons_iff in G as [Gp G]. apply laid_out_app in H as (l1 & l2 & -> & H1 & H2). rewrite parse_lines_app.
      rewrite (part_step p l1 a Gp H1), run_app. destruct (run (part_events p) a) as [a'|e]; [|reflexivity]. cbn [rbind]. now apply IH.
  Qed.
End Run.
