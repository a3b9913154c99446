(** Specification of the objective builders and proofs about [ObjModel]. *)
From Coq Require Import QArith Ascii Lqa.
From Verif Require Import Base ObjModel.
Open Scope nat_scope.
Open Scope list_scope.
Open Scope string_scope.

(** The documented argument forms (docstring L865-874) and what they mean. *)
Inductive described (groups : list string) : arg -> string * string * Q -> Prop :=
| d_output s : ~ In s groups -> described groups (PStr s) ("model", s, 1%Q)
| d_output_weight s w : ~ In s groups -> described groups (PTuple [EStr s; ENum w]) ("model", s, w)
| d_model_output m o : In m groups -> described groups (PTuple [EStr m; EStr o]) (m, o, 1%Q)
| d_full m o w : In m groups -> described groups (PTuple [EStr m; EStr o; ENum w]) (m, o, w).

(** Recognised short names. *)
Definition short_names : list (string * string) :=
  [("fuel_burned", "mission:fuel_mass"); ("fuel", "mission:objectives:fuel");
   ("mass", "mission:final_mass"); ("time", "mission:final_time"); ("range", "mission:range")].
Definition full_name (s : string) : string :=
  match dget s short_names with Some v => v | None => s end.

(** The path of the model output a triple stands for. *)
Definition source_of (t : string * string * Q) : string :=
  fst (fst t) ++ "." ++ full_name (snd (fst t)).

Definition total (ts : list (string * string * Q)) : Q := fold_right (fun t acc => snd t + acc)%Q 0%Q ts.
Definition weighted (val : string -> Q) (ts : list (string * string * Q)) : Q :=
  fold_right (fun t acc => snd t * val (source_of t) + acc)%Q 0%Q ts.

(** Values at the inputs of the component agree with what is connected to them. *)
Definition connected (val inputs : string -> Q) (cs : list connection) : Prop :=
  forall s n, In (s, "composite_function." ++ n) cs -> (inputs n == val s)%Q.

Lemma in_groups_In groups s : in_groups groups (EStr s) = true <-> In s groups.
Proof.
  cbn. rewrite existsb_exists. split.
  - intros (x&I&E). apply String.eqb_eq in E. now subst.
  - intro I. exists s. split; [exact I|apply String.eqb_refl].
Qed.

Lemma in_groups_nIn groups s : in_groups groups (EStr s) = false <-> ~ In s groups.
Proof. rewrite <- in_groups_In. destruct (in_groups _ _); split; congruence. Qed.

Definition raw (t : string * string * Q) : string * elt * elt := (fst (fst t), EStr (snd (fst t)), ENum (snd t)).

Lemma parse_described groups pt a t : described groups a t -> parse_arg groups pt a = Ok (raw t).
Proof.
  intros [s H|s w H|m o H|m o w H]; unfold parse_arg; try (apply in_groups_nIn in H; now rewrite H);
    apply in_groups_In in H; now rewrite H.
Qed.

Lemma parse_all groups pt args ts :
  Forall2 (described groups) args ts -> parse_args groups pt args = Ok (map raw ts).
Proof.
  induction 1 as [|a t args ts D _ IH]; [reflexivity|]. cbn [parse_args map].
  rewrite (parse_described groups pt a t D), IH. reflexivity.
Qed.

Lemma clean_full s : clean_output (EStr s) = EStr (full_name s).
Proof.
  unfold clean_output, full_name, short_names. cbn [dget].
  destruct (String.eqb s "fuel_burned"); [reflexivity|].
  destruct (String.eqb s "fuel"); [reflexivity|].
  destruct (String.eqb s "mass"); [reflexivity|].
  destruct (String.eqb s "time"); [reflexivity|].
  destruct (String.eqb s "range"); reflexivity.
Qed.

Definition named (t : string * string * Q) : string * string * Q := (fst (fst t), full_name (snd (fst t)), snd t).

Lemma cleaned_raw ts :
  map (fun t => (fst (fst t), clean_output (snd (fst t)), snd t)) (map raw ts) = map raw (map named ts).
Proof.
  rewrite !map_map. apply map_ext. intros [[m o] w]. unfold raw, named.
  cbn [fst snd]. now rewrite clean_full.
Qed.

Lemma sum_weights_raw ts : forall acc,
  exists q, sum_weights acc (map raw ts) = Ok q /\ (q == acc + total ts)%Q.
Proof.
  induction ts as [|[[m o] w] ts IH]; intro acc; cbn [map sum_weights raw fst snd].
  - exists acc. split; [reflexivity|]. cbn. ring.
  - destruct (IH (acc + w)%Q) as (q&E&H). exists q. split; [exact E|]. rewrite H. cbn [total fold_right snd].
    change (fold_right (fun t acc => snd t + acc)%Q 0%Q ts) with (total ts). ring.
Qed.

Lemma total_named ts : total (map named ts) = total ts.
Proof. induction ts as [|[[m o] w] ts IH]; [reflexivity|]. unfold total in *. cbn [map fold_right named snd fst]. now rewrite IH. Qed.

Definition term_of (q : Q) (t : string * string * Q) : term :=
  {| t_input := fst (fst t) ++ "_" ++ replace_colon (snd (fst t)); t_weight := snd t; t_total := q |}.
Definition connect_of (t : string * string * Q) : connection :=
  (fst (fst t) ++ "." ++ snd (fst t), "composite_function." ++ fst (fst t) ++ "_" ++ replace_colon (snd (fst t))).

Lemma build_terms_raw q ts :
  build_terms q (map raw ts) = Ok (map (term_of q) ts, map connect_of ts).
Proof.
  induction ts as [|[[m o] w] ts IH]; [reflexivity|]. cbn [map build_terms raw fst snd].
  rewrite IH. reflexivity.
Qed.

Lemma composite_described groups pt args ts ref :
  Forall2 (described groups) args ts ->
  exists q, (q == total ts)%Q /\
  add_composite_objective groups pt args ref =
    Ok {| c_terms := map (term_of q) (map named ts); c_connects := map connect_of (map named ts);
          c_ref := fold_left (next_ref (List.length args)) (map (fun t => EStr (snd (fst t))) ts) ref |}.
Proof.
  intro D. unfold add_composite_objective. rewrite (parse_all groups pt args ts D). cbn [rbind].
  rewrite cleaned_raw. destruct (sum_weights_raw (map named ts) 0%Q) as (q&E&H). rewrite E. cbn [rbind].
  rewrite build_terms_raw. cbn [rbind fst snd]. exists q. split.
  - rewrite H, total_named. ring.
  - f_equal. f_equal. now rewrite map_map.
Qed.

Lemma eval_terms_value q val inputs ts :
  ~ (q == 0)%Q -> connected val inputs (map connect_of (map named ts)) ->
  exists v, eval_terms inputs (map (term_of q) (map named ts)) = Ok v /\ (v * q == weighted val ts)%Q.
Proof.
  intros Nq C. induction ts as [|[[m o] w] ts IH]; cbn [map eval_terms].
  - exists 0%Q. split; [reflexivity|]. cbn. ring.
  - destruct IH as (v&E&H).
    { intros s n I. apply C. now right. }
    unfold term_of at 1. cbn [t_total t_input t_weight named fst snd].
    destruct (Qeq_bool q 0) eqn:Z; [apply Qeq_bool_eq in Z; contradiction|].
    rewrite E. cbn [rbind].
    assert (X : (inputs (m ++ "_" ++ replace_colon (full_name o)) == val (m ++ "." ++ full_name o))%Q).
    { apply C. left. reflexivity. }
    eexists. split; [reflexivity|]. cbn [weighted fold_right source_of fst snd].
    change (fold_right (fun t acc => snd t * val (source_of t) + acc)%Q 0%Q ts) with (weighted val ts).
    rewrite <- H, <- X. cbn [term_of named t_input t_weight t_total fst snd]. now field.
Qed.

Lemma composite_value groups pt args ts ref :
  Forall2 (described groups) args ts -> ~ (total ts == 0)%Q ->
  exists c, add_composite_objective groups pt args ref = Ok c /\
  forall val inputs, connected val inputs (c_connects c) ->
  exists v, eval_terms inputs (c_terms c) = Ok v /\ (v == weighted val ts / total ts)%Q.
Proof.
  intros D T. destruct (composite_described groups pt args ts ref D) as (q&H&E).
  eexists. split; [exact E|]. cbn [c_connects c_terms]. intros val inputs C.
  assert (Nq : ~ (q == 0)%Q) by now rewrite H.
  destruct (eval_terms_value q val inputs ts Nq C) as (v&Ev&V). exists v. split; [exact Ev|].
  rewrite <- V, <- H. now field.
Qed.

Lemma composite_zero groups pt args ts ref :
  Forall2 (described groups) args ts -> args <> [] -> (total ts == 0)%Q ->
  exists c, add_composite_objective groups pt args ref = Ok c /\
  forall inputs, eval_terms inputs (c_terms c) = Err ZeroDivisionError.
Proof.
  intros D N T. destruct (composite_described groups pt args ts ref D) as (q&H&E).
  eexists. split; [exact E|]. cbn [c_terms]. intro inputs.
  destruct D as [|a t args ts D0 D]; [contradiction|]. cbn [map eval_terms term_of t_total].
  assert (Z : Qeq_bool q 0 = true) by (apply Qeq_bool_iff; now rewrite H). now rewrite Z.
Qed.

(** Exactly one term and one connection per argument, in order. *)
Lemma composite_order groups pt args ts ref c :
  Forall2 (described groups) args ts -> add_composite_objective groups pt args ref = Ok c ->
  Forall2 (fun t x => t_weight x = snd t) ts (c_terms c) /\
  map fst (c_connects c) = map source_of ts /\
  map snd (c_connects c) = map (fun x => "composite_function." ++ t_input x) (c_terms c).
Proof.
  intros D E. destruct (composite_described groups pt args ts ref D) as (q&H&E'). rewrite E in E'.
  injection E' as ->. cbn [c_terms c_connects]. clear. split; [|split].
  - induction ts as [|[[m o] w] ts IH]; cbn; constructor; [reflexivity|exact IH].
  - rewrite !map_map. apply map_ext. intros [[m o] w]. reflexivity.
  - rewrite !map_map. apply map_ext. intros [[m o] w]. reflexivity.
Qed.

(** ** Acceptance *)
Definition malformed (a : arg) : Prop :=
  a = POther \/ exists l, a = PTuple l /\ List.length l <> 2 /\ List.length l <> 3.

Definition accepted (groups : list string) (pt : problem_type) (a : arg) : Prop :=
  (exists t, described groups a t) \/ (malformed a /\ pt <> MULTI_MISSION).

Definition numeric (t : string * elt * elt) : Prop := exists m o w, t = (m, EStr o, ENum w).

Lemma parse_arg_cases groups pt a :
  match parse_arg groups pt a with
  | Ok t => (numeric t /\ accepted groups pt a) \/ (~ numeric t /\ ~ accepted groups pt a)
  | Err e => e = ValueError /\ ~ accepted groups pt a
  end.
Proof.
  assert (ND : forall l t, List.length l <> 2 -> List.length l <> 3 -> ~ described groups (PTuple l) t).
  { intros l t A B D. inversion D; subst; cbn in *; congruence. }
  assert (NM : forall l, List.length l = 2 \/ List.length l = 3 -> ~ malformed (PTuple l)).
  { intros l A [[=]|(l'&[= <-]&B&C)]. destruct A; contradiction. }
  assert (MAL : forall a, malformed a ->
            match (match pt with
                   | SIZING => Ok ("model", EStr OBJECTIVES_FUEL, ENum 1)
                   | OFF_DESIGN_MIN_FUEL => Ok ("model", EStr OBJECTIVES_FUEL, ENum 1)
                   | OFF_DESIGN_MAX_RANGE => Ok ("model", EStr OBJECTIVES_RANGE, ENum 1)
                   | MULTI_MISSION => Err ValueError end) with
            | Ok t => (numeric t /\ accepted groups pt a) \/ (~ numeric t /\ ~ accepted groups pt a)
            | Err e => e = ValueError /\ ~ accepted groups pt a end).
  { intros b M. destruct pt.
    1-3: left; split; [unfold numeric; eauto|right; split; [exact M|discriminate]].
    split; [reflexivity|]. intros [[t D]|[_ K]]; [|contradiction].
    destruct M as [->|(l&->&A&B)]; [inversion D|now apply (ND l t A B)]. }
  unfold parse_arg. destruct a as [s|l|].
  - destruct (in_groups groups (EStr s)) eqn:G.
    + apply in_groups_In in G. split; [reflexivity|]. intros [[t D]|[[[=]|(l&[=]&_)] _]]. inversion D; subst. contradiction.
    + apply in_groups_nIn in G. left. split; [unfold numeric; eauto|left; eexists; now constructor].
  - destruct l as [|e1 [|e2 [|e3 [|e4 l]]]].
    + apply MAL. right. exists []. cbn. split; [reflexivity|lia].
    + apply MAL. right. exists [e1]. cbn. split; [reflexivity|lia].
    + assert (N2 : ~ malformed (PTuple [e1; e2])) by (apply NM; now left).
      destruct e1 as [f|q|]; [|split; [reflexivity|intros [[t D]|[K _]]; [inversion D|contradiction]]..].
      destruct e2 as [s|w|].
      * destruct (in_groups groups (EStr f)) eqn:G.
        -- apply in_groups_In in G. left. split; [unfold numeric; eauto|left; eexists; now constructor].
        -- apply in_groups_nIn in G. split; [reflexivity|]. intros [[t D]|[K _]]; [|contradiction]. inversion D; subst; contradiction.
      * destruct (in_groups groups (EStr f)) eqn:G.
        -- apply in_groups_In in G. split; [reflexivity|]. intros [[t D]|[K _]]; [|contradiction]. inversion D; subst; contradiction.
        -- apply in_groups_nIn in G. left. split; [unfold numeric; eauto|left; eexists; now constructor].
      * split; [reflexivity|]. intros [[t D]|[K _]]; [inversion D|contradiction].
    + assert (N3 : ~ malformed (PTuple [e1; e2; e3])) by (apply NM; now right).
      destruct e1 as [f|q|]; [|split; [reflexivity|intros [[t D]|[K _]]; [inversion D|contradiction]]..].
      destruct (in_groups groups (EStr f)) eqn:G.
      * apply in_groups_In in G. destruct e2 as [o|o|].
        -- destruct e3 as [w|w|].
           ++ right. split; [intros (?&?&?&[=])|]. intros [[t D]|[K _]]; [inversion D|contradiction].
           ++ left. split; [unfold numeric; eauto|left; eexists; now constructor].
           ++ right. split; [intros (?&?&?&[=])|]. intros [[t D]|[K _]]; [inversion D|contradiction].
        -- right. split; [intros (?&?&?&[=])|]. intros [[t D]|[K _]]; [inversion D|contradiction].
        -- right. split; [intros (?&?&?&[=])|]. intros [[t D]|[K _]]; [inversion D|contradiction].
      * apply in_groups_nIn in G. split; [reflexivity|]. intros [[t D]|[K _]]; [|contradiction]. inversion D; subst; contradiction.
    + apply MAL. right. exists (e1 :: e2 :: e3 :: e4 :: l). cbn. split; [reflexivity|lia].
  - apply MAL. now left.
Qed.

Lemma parse_args_cases groups pt args :
  match parse_args groups pt args with
  | Ok ts => (Forall numeric ts <-> Forall (accepted groups pt) args) /\ List.length ts = List.length args
  | Err _ => ~ Forall (accepted groups pt) args
  end.
Proof.
  induction args as [|a args IH]; cbn [parse_args].
  - split; [|reflexivity]. split; intro; constructor.
  - pose proof (parse_arg_cases groups pt a) as H. destruct (parse_arg groups pt a) as [t|e]; cbn [rbind].
    + destruct (parse_args groups pt args) as [ts|e]; cbn [rbind].
      * destruct IH as [IH L]. split; [|cbn; now rewrite L].
        rewrite !Forall_cons_iff, IH. tauto.
      * rewrite Forall_cons_iff. tauto.
    + rewrite Forall_cons_iff. tauto.
Qed.

Lemma numeric_ok l q : Forall numeric l ->
  (exists s, sum_weights q l = Ok s) /\ forall r, exists tc, build_terms r l = Ok tc.
Proof.
  intro F. revert q. induction F as [|t l (m&o&w&->) F IH]; intro q.
  - split; [exists q; reflexivity|]. intro r. exists ([], []). reflexivity.
  - destruct (IH (q + w)%Q) as [[s E] B]. split; [exists s; exact E|]. intro r.
    destruct (B r) as [tc B1]. cbn [build_terms]. rewrite B1. cbn. eauto.
Qed.

Lemma sum_build_ok l : (exists s, sum_weights 0 l = Ok s) /\ (exists s tc, build_terms s l = Ok tc) <-> Forall numeric l.
Proof.
  split.
  - intros [[s S] (s'&tc&B)]. revert S tc B. generalize 0%Q.
    induction l as [|[[m o] w] l IH]; intros q S tc B; [constructor|].
    cbn [build_terms] in B. destruct o as [o| |]; try discriminate. destruct w as [|w|]; try discriminate.
    destruct (build_terms s' l) as [tc'|] eqn:B'; [|discriminate].
    constructor; [unfold numeric; eauto|]. cbn [sum_weights] in S. eapply IH; eauto.
  - intro F. destruct (numeric_ok l 0%Q F) as [[s E] B]. split; [eauto|].
    destruct (B 0%Q) as [tc B1]. exists 0%Q, tc. exact B1.
Qed.

Lemma clean_numeric l :
  Forall numeric (map (fun t => (fst (fst t), clean_output (snd (fst t)), snd t)) l) <-> Forall numeric l.
Proof.
  induction l as [|[[m o] w] l IH]; cbn [map fst snd]; [tauto|]. rewrite !Forall_cons_iff, IH.
  assert (K : numeric (m, clean_output o, w) <-> numeric (m, o, w)); [|tauto].
  unfold numeric. destruct o as [s|q|].
  - rewrite clean_full. split; intros (?&?&?&[= -> <- ->]); eauto.
  - cbn. split; intros (?&?&?&[=]).
  - cbn. split; intros (?&?&?&[=]).
Qed.

Lemma build_any_total s s' l tc : build_terms s l = Ok tc -> exists tc', build_terms s' l = Ok tc'.
Proof.
  revert tc. induction l as [|[[m o] w] l IH]; intros tc B; cbn [build_terms] in *; [eauto|].
  destruct o as [o| |]; try discriminate. destruct w as [|w|]; try discriminate.
  destruct (build_terms s l) as [tc'|]; [|discriminate]. destruct (IH tc' eq_refl) as [tc'' ->]. cbn. eauto.
Qed.

Lemma accepts_iff groups pt args ref :
  (exists c, add_composite_objective groups pt args ref = Ok c) <-> Forall (accepted groups pt) args.
Proof.
  unfold add_composite_objective. pose proof (parse_args_cases groups pt args) as H.
  destruct (parse_args groups pt args) as [ts|e]; cbn [rbind].
  - destruct H as [H _]. rewrite <- H, <- clean_numeric, <- sum_build_ok. split.
    + intros [c E]. destruct (sum_weights 0 _) as [s|] eqn:S; [|discriminate]. cbn [rbind] in E.
      destruct (build_terms s _) as [tc|] eqn:B; [|discriminate]. split; eauto.
    + intros [[s ->] (s'&tc&B)]. cbn [rbind].
      destruct (build_any_total s' s _ tc B) as [tc' ->]. cbn [rbind]. eauto.
  - split; [intros [? [=]]|]. contradiction.
Qed.

(** ** Reference *)
Lemma next_ref_many n o r : n <> 1 -> next_ref n r o = r.
Proof. intro N. apply Nat.eqb_neq in N. unfold next_ref. destruct o, r; try reflexivity. now rewrite N. Qed.

Lemma fold_ref_many n l : n <> 1 -> forall r, fold_left (next_ref n) l r = r.
Proof. intros N. induction l as [|o l IH]; intro r; [reflexivity|]. cbn [fold_left]. now rewrite next_ref_many, IH. Qed.

Lemma fold_ref_some n l q : fold_left (next_ref n) l (Some q) = Some q.
Proof. induction l as [|o l IH]; [reflexivity|]. cbn [fold_left]. destruct o; exact IH. Qed.

(** ** Identifiers *)
Definition ident_char (c : ascii) : Prop :=
  let n := nat_of_ascii c in
  (48 <= n <= 57) \/ (65 <= n <= 90) \/ n = 95 \/ (97 <= n <= 122).
Fixpoint all_chars (P : ascii -> Prop) (s : string) : Prop :=
  match s with "" => True | String c s' => P c /\ all_chars P s' end.

Lemma all_chars_app P a b : all_chars P (a ++ b) <-> all_chars P a /\ all_chars P b.
Proof. induction a as [|c a IH]; cbn; [tauto|]. rewrite IH. tauto. Qed.

Lemma replace_colon_ident s :
  all_chars (fun c => ident_char c \/ c = ":"%char) s -> all_chars ident_char (replace_colon s).
Proof.
  induction s as [|c s IH]; cbn [all_chars replace_colon]; [tauto|]. intros [H K].
  split; [|now apply IH]. destruct (Ascii.eqb c ":") eqn:E.
  - unfold ident_char. cbn. lia.
  - apply Ascii.eqb_neq in E. tauto.
Qed.

(** ** The version with separate mission weights *)
Definition qtotal (l : list Q) : Q := fold_right Qplus 0%Q l.

Lemma qsum_total l : (qsum l == qtotal l)%Q.
Proof.
  unfold qsum. assert (K : forall acc, (fold_left Qplus l acc == acc + qtotal l)%Q).
  { induction l as [|x l IH]; intro acc; cbn [fold_left qtotal fold_right]; [ring|].
    rewrite IH. change (fold_right Qplus 0%Q l) with (qtotal l). ring. }
  rewrite K. ring.
Qed.

Lemma qtotal_div l q : ~ (q == 0)%Q -> (qtotal (map (fun w => w / q) l) == qtotal l / q)%Q.
Proof.
  intro N. induction l as [|x l IH]; cbn [map qtotal fold_right].
  - now field.
  - change (fold_right Qplus 0%Q (map (fun w => (w / q)%Q) l)) with (qtotal (map (fun w => (w / q)%Q) l)).
    change (fold_right Qplus 0%Q l) with (qtotal l). rewrite IH. now field.
Qed.

Lemma normalise_total l l' :
  l <> [] -> normalise l = Ok l' -> (qtotal l' == 1)%Q /\ l' = map (fun w => w / qsum l)%Q l /\ ~ (qtotal l == 0)%Q.
Proof.
  intros N. unfold normalise. destruct l as [|x l]; [contradiction|]. cbv zeta.
  destruct (Qeq_bool (qsum (x :: l)) 0) eqn:Z; [discriminate|]. intros [= <-].
  apply Qeq_bool_neq in Z. split; [|split; [reflexivity|now rewrite <- qsum_total]].
  change (x / qsum (x :: l) :: map (fun w => w / qsum (x :: l)) l)%Q with (map (fun w => w / qsum (x :: l))%Q (x :: l)).
  rewrite qtotal_div by exact Z. rewrite <- qsum_total. field. exact Z.
Qed.

Lemma qtotal_app a b : (qtotal (a ++ b) == qtotal a + qtotal b)%Q.
Proof.
  induction a as [|x a IH].
  - cbn [app]. change (qtotal []) with 0%Q. ring.
  - cbn [app qtotal fold_right].
  change (fold_right Qplus 0%Q (a ++ b)) with (qtotal (a ++ b)). change (fold_right Qplus 0%Q a) with (qtotal a).
  rewrite IH. ring.
Qed.

Lemma combine_snd {A B} (l : list A) (m : list B) : List.length l = List.length m -> map snd (combine l m) = m.
Proof. revert m. induction l as [|x l IH]; intros [|y m] H; cbn in *; try discriminate; [reflexivity|]. f_equal. apply IH. lia. Qed.

Lemma adv_total (ms os : list string) (mw ow : list Q) :
  List.length ms = List.length mw -> List.length os = List.length ow ->
  (qtotal (map (fun p : (string * Q) * (string * Q) => snd (snd p) * snd (fst p))%Q
             (flat_map (fun m => map (fun o => (m, o)) (combine os ow)) (combine ms mw))) == qtotal ow * qtotal mw)%Q.
Proof.
  revert mw. induction ms as [|m ms IH]; intros [|w mw] Lm Lo; cbn in Lm; try discriminate.
  - cbn. ring.
  - cbn [combine flat_map]. rewrite map_app, qtotal_app, IH by (try exact Lo; lia).
    rewrite map_map. cbn [fst snd qtotal fold_right]. change (fold_right Qplus 0%Q mw) with (qtotal mw).
    assert (K : (qtotal (map (fun x : string * Q => snd x * w)%Q (combine os ow)) == qtotal ow * w)%Q).
    { clear IH Lm. revert ow Lo. induction os as [|o os IHo]; intros [|y ow] Lo; cbn in Lo; try discriminate; cbn [combine map qtotal fold_right snd].
      - ring.
      - change (fold_right Qplus 0%Q (map (fun x : string * Q => (snd x * w)%Q) (combine os ow))) with (qtotal (map (fun x : string * Q => (snd x * w)%Q) (combine os ow))).
        change (fold_right Qplus 0%Q ow) with (qtotal ow). rewrite IHo by lia. ring. }
    rewrite K. ring.
Qed.
