(** Properties C12 (token conversion) and C45 (vehicle deck reader). *)
From Coq Require Import Ascii QArith Lia.
From Verif Require Import Base CsvModel StrModel StrProofs.
Open Scope nat_scope.

(** ** C12 *)
(** Which token becomes what: a token stripped of brackets is an integer, a decimal number with a point, a
    spelling of true or false, or kept as it is. *)
Theorem C12_classification :
  forall s, let d := strip_of is_bracket s in
    (forall z, convert s = DInt z <-> int_token d z) /\
    (forall q, convert s = DFloat q <-> float_token d q) /\
    (forall b, convert s = DBool b <-> spells (if b then "true" else "false") d) /\
    (forall t, convert s = DStr t <-> t = d /\ ~ number_token d /\ ~ spells "true" d /\ ~ spells "false" d).
Proof. exact convert_iff. Qed.
Print Assumptions C12_classification.

(** Decimal notation is read back: digits, optionally with a sign and a decimal point. *)
Theorem C12_decimals_read_back :
  (forall neg l, all_digits l -> l <> [] -> convert (minus neg ++ print l) = DInt (sgn neg * value_of l)) /\
  (forall neg a f, all_digits a -> all_digits f -> a ++ f <> [] ->
     convert (minus neg ++ print a ++ "."%char :: print f) =
     DFloat (inject_Z (sgn neg * value_of (a ++ f)) * Qpower 10 (0 - Z.of_nat (length f)))) /\
  (forall z, exists s, convert s = DInt z).
Proof.
  split; [exact convert_int|]. split; [exact convert_float|]. intro z.
  destruct (every_int z) as (neg & l & L & N & ->). exists (minus neg ++ print l). now apply convert_int.
Qed.
Print Assumptions C12_decimals_read_back.

(** One result per token, in order; a single token gives a single value. *)
Theorem C12_shape :
  (forall s, convert_strings_to_data (One s) = One' (convert s)) /\
  (forall l, exists r, convert_strings_to_data (Many l) = Many' r /\ length r = length l /\
             forall i s, nth_error l i = Some s -> nth_error r i = Some (convert s)).
Proof.
  split; [reflexivity|]. intro l. eexists. split; [reflexivity|]. split; [apply map_length|].
  intros i s H. rewrite nth_error_map, H. reflexivity.
Qed.
Print Assumptions C12_shape.

(** A number in scientific notation without a point stays a string: 1e5, and 1e-05, which is what str(0.00001) prints. *)
Theorem C12_scientific_notation_refuted :
  (forall s, (forall q, convert s = DFloat q -> In "."%char s)) /\
  convert (lit "1e5") = DStr (lit "1e5") /\ convert (lit "1e-05") = DStr (lit "1e-05") /\
  exists q, convert (lit "1.e5") = DFloat q /\ (q == 100000)%Q.
Proof.
  split; [|split; [reflexivity|split; [reflexivity|eexists; split; [reflexivity|reflexivity]]]].
  intros s q H. apply (proj1 (proj2 (convert_iff s))), float_has_dot, has_dot_iff, In_strip in H. exact H.
Qed.
Print Assumptions C12_scientific_notation_refuted.

Example C12_witness :
  convert_strings_to_data (Many [lit "[1"; lit "-2.50"; lit "TRUE"; lit "x]"; lit "1_000"; lit "1__0"])
  = Many' [DInt 1; DFloat (inject_Z (-250) * Qpower 10 (-2)); DBool true; DStr (lit "x"); DInt 1000; DStr (lit "1__0")].
Proof. reflexivity. Qed.

(** ** C45 *)
(** A line of the deck: cells separated by commas, with any white space around them, empty cells and a comment. *)
Theorem C45_line_items :
  forall cs o, Forall cell_ok cs -> items (line_text cs ++ comment o) = flat_map cell_items cs.
Proof. exact items_line. Qed.
Print Assumptions C45_line_items.

(** A line name, v1, ..., vn [, units] for a variable in the metadata sets that variable to the converted values, with the
    units given or else those of the metadata: a single value as a scalar unless the variable takes several. *)
Theorem C45_line_sets_variable :
  forall valid_units meta guesses cs o name v vs mu multi (u : option str),
    Forall cell_ok cs ->
    flat_map cell_items cs = name :: (v :: vs) ++ (match u with Some x => [x] | None => [] end) ->
    meta name = Some (multi, mu) ->
    (match u with Some x => valid_units x = true | None => valid_units (last (v :: vs) v) = false end) ->
    parse_line valid_units meta guesses (line_text cs ++ comment o) =
    Ok (Some (SetVar name
                (match vs, multi with
                 | [], false => Scalar (convert v)
                 | [], true => if numeric (convert v) then NpArray [convert v] else PyList [convert v]
                 | _, _ => PyList (map convert (v :: vs))
                 end)
                (match u with Some x => x | None => mu end))).
Proof.
  intros vu meta gs cs o name v vs mu multi u C E M U. unfold parse_line. rewrite items_line, E by assumption.
  assert (LI : forall (l : list str) x, last_item (l ++ [x]) = Some x) by (intros l x; unfold last_item; now rewrite rev_app_distr).
  destruct u as [x|].
  - rewrite LI, U, removelast_last, M. cbn [map]. destruct vs as [|w vs]; [|reflexivity]. simpl. destruct multi; reflexivity.
  - rewrite app_nil_r. destruct (exists_last (l := v :: vs)) as (l & x & X); [discriminate|].
    rewrite X in *. rewrite LI. rewrite last_last in U. rewrite U, M. rewrite <- X. cbn [map].
    destruct vs as [|w vs]; [|reflexivity]. simpl. destruct multi; reflexivity.
Qed.
Print Assumptions C45_line_sets_variable.

(** A file is read line by line; lines without data leave no trace. *)
Theorem C45_file :
  forall valid_units meta guesses lines acts,
    parse_inputs valid_units meta guesses lines = Ok acts <->
    exists rs, Forall2 (fun l r => parse_line valid_units meta guesses l = Ok r) lines rs /\
               acts = flat_map (fun r => match r with Some a => [a] | None => [] end) rs.
Proof.
  intros vu meta gs lines. induction lines as [|l lines IH]; intro acts; simpl.
  - split; [intros [= <-]; exists []; split; [constructor|reflexivity]|]. intros (rs & F & ->). inversion F. reflexivity.
  - split.
    + destruct (parse_line vu meta gs l) as [a|] eqn:P; simpl; [|discriminate].
      destruct (parse_inputs vu meta gs lines) as [as'|] eqn:Q; simpl; [|discriminate]. intros [= <-].
      destruct (proj1 (IH as') eq_refl) as (rs & F & ->). exists (a :: rs). split; [now constructor|]. destruct a; reflexivity.
    + intros (rs & F & ->). inversion F as [|l' a ls' rs' P FS]; subst. rewrite P. simpl.
      rewrite (proj2 (IH _) (ex_intro _ rs' (conj FS eq_refl))). simpl. destruct a; reflexivity.
Qed.
Print Assumptions C45_file.

(** A line with a name only, or with a name and units only, stops the reader with an IndexError; it also does so for
    unknown names. *)
Theorem C45_missing_value_refuted :
  forall valid_units meta guesses cs o name, Forall cell_ok cs ->
    (flat_map cell_items cs = [name] ->
       parse_line valid_units meta guesses (line_text cs ++ comment o) = Err IndexError) /\
    (forall u, flat_map cell_items cs = [name; u] -> valid_units u = true ->
       parse_line valid_units meta guesses (line_text cs ++ comment o) = Err IndexError).
Proof.
  intros vu meta gs cs o name C. unfold parse_line. rewrite items_line by assumption. split.
  - intros ->. reflexivity.
  - intros u -> U. simpl. now rewrite U.
Qed.
Print Assumptions C45_missing_value_refuted.

(** A text value that happens to be the name of a unit is taken for the unit: with two or more values it is lost. *)
Theorem C45_text_value_taken_for_units_refuted :
  forall valid_units meta guesses name a u multi mu,
    meta name = Some (multi, mu) -> item name -> item a -> item u -> valid_units u = true ->
    exists v, parse_line valid_units meta guesses (name ++ ","%char :: a ++ ","%char :: u) = Ok (Some (SetVar name v u)) /\
      (v = Scalar (convert a) \/ v = NpArray [convert a] \/ v = PyList [convert a]).
Proof.
  intros vu meta gs name a u multi mu M IN IA IU U.
  assert (C : Forall cell_ok [Item [] name []; Item [] a []; Item [] u []]) by (repeat constructor; simpl; auto; try apply IN; try apply IA; try apply IU).
  pose proof (C45_line_sets_variable vu meta gs _ None name a [] mu multi (Some u) C eq_refl M U) as H.
  simpl line_text in H. rewrite !app_nil_r in H. cbn [comment] in H.
  eexists. split; [exact H|]. destruct multi; [destruct (numeric (convert a))|]; auto.
Qed.
Print Assumptions C45_text_value_taken_for_units_refuted.

(** An unknown name without a colon is dropped without a warning. *)
Theorem C45_unknown_names :
  forall valid_units meta guesses cs o name v vs acts,
    Forall cell_ok cs -> flat_map cell_items cs = name :: v :: vs -> valid_units (last (v :: vs) v) = false ->
    meta name = None -> ~ In name guesses -> remove_prefix guess_prefix name = None ->
    parse_line valid_units meta guesses (line_text cs ++ comment o) = Ok acts ->
    acts = Some (Ignored name (existsb (fun c => Ascii.eqb c ":") name)).
Proof.
  intros vu meta gs cs o name v vs acts C E U M G R. unfold parse_line. rewrite items_line, E by assumption.
  destruct (exists_last (l := v :: vs)) as (l & x & X); [discriminate|]. rewrite X in *.
  assert (LI : last_item (l ++ [x]) = Some x) by (unfold last_item; now rewrite rev_app_distr).
  rewrite LI. rewrite last_last in U. rewrite U, M, R.
  destruct (mem_str name gs) eqn:K; [apply CsvProofs.mem_str_In in K; contradiction|].
  destruct (pack false _); simpl; congruence.
Qed.
Print Assumptions C45_unknown_names.

Example C45_witness :
  let vu s := str_eqb s (lit "ft**2") in
  let meta s := if str_eqb s (lit "aircraft:wing:area") then Some (false, lit "m**2") else None in
  parse_inputs vu meta [lit "reserves"]
    [ lit "aircraft:wing:area, 1370.0, ft**2 # area"; lit ",,,"; lit "reserves, 4998"; lit "aircraft:x:y,1";
      lit "initialization_guesses:fuel,true" ]
  = Ok [ SetVar (lit "aircraft:wing:area") (Scalar (DFloat (inject_Z 13700 * Qpower 10 (-1)))) (lit "ft**2");
         SetGuess (lit "reserves") (Scalar (DInt 4998)); Ignored (lit "aircraft:x:y") true;
         SetGuess (lit "fuel") (Scalar (DBool true)) ].
Proof. reflexivity. Qed.
