(** C25: composite objectives. *)
From Coq Require Import QArith Ascii Lqa.
From Verif Require Import Base ObjModel ObjProofs.
Open Scope nat_scope.
Open Scope list_scope.
Open Scope string_scope.

(** For documented arguments the objective is the weighted mean of the named model outputs. *)
Theorem C25_weighted_mean : forall groups pt args ts ref,
  Forall2 (described groups) args ts -> ~ (total ts == 0)%Q ->
  exists c, add_composite_objective groups pt args ref = Ok c /\
  forall val inputs, connected val inputs (c_connects c) ->
  exists v, eval_terms inputs (c_terms c) = Ok v /\ (v == weighted val ts / total ts)%Q.
Proof. exact composite_value. Qed.
Print Assumptions C25_weighted_mean.

(** One term and one connection per argument, in the order given. *)
Theorem C25_order : forall groups pt args ts ref c,
  Forall2 (described groups) args ts -> add_composite_objective groups pt args ref = Ok c ->
  Forall2 (fun t x => t_weight x = snd t) ts (c_terms c) /\
  map fst (c_connects c) = map source_of ts /\
  map snd (c_connects c) = map (fun x => "composite_function." ++ t_input x) (c_terms c).
Proof. exact composite_order. Qed.
Print Assumptions C25_order.

Theorem C25_zero_total : forall groups pt args ts ref,
  Forall2 (described groups) args ts -> args <> [] -> (total ts == 0)%Q ->
  exists c, add_composite_objective groups pt args ref = Ok c /\
  forall inputs, eval_terms inputs (c_terms c) = Err ZeroDivisionError.
Proof. exact composite_zero. Qed.
Print Assumptions C25_zero_total.

(** Exactly which argument lists are accepted. *)
Theorem C25_accepts_iff : forall groups pt args ref,
  (exists c, add_composite_objective groups pt args ref = Ok c) <-> Forall (accepted groups pt) args.
Proof. exact accepts_iff. Qed.
Print Assumptions C25_accepts_iff.

(** The reference: the caller's, or a default that only a single short name has. *)
Theorem C25_reference : forall groups pt args ts ref c,
  Forall2 (described groups) args ts -> add_composite_objective groups pt args ref = Ok c ->
  (forall q, ref = Some q -> c_ref c = Some q) /\
  (ref = None -> List.length args <> 1 -> c_ref c = None) /\
  (ref = None -> forall m o w, ts = [(m, o, w)] ->
     c_ref c = dget o [("fuel_burned", 10000 # 1); ("fuel", 10000 # 1); ("mass", - 50000 # 1)]%Q).
Proof.
  intros groups pt args ts ref c D E.
  destruct (composite_described groups pt args ts ref D) as (q&_&E'). rewrite E in E'. injection E' as ->.
  cbn [c_ref]. split; [|split].
  - intros r ->. apply fold_ref_some.
  - intros -> N. now apply fold_ref_many.
  - intros -> m o w ->. inversion D as [|a ? args' ? _ D']; subst. inversion D'; subst.
    cbn [List.length map fold_left next_ref fst snd Nat.eqb dget].
    destruct (String.eqb o "fuel_burned"); [reflexivity|]. destruct (String.eqb o "fuel"); [reflexivity|].
    destruct (String.eqb o "mass"); reflexivity.
Qed.
Print Assumptions C25_reference.

(** Inputs of the component are Python identifiers when model and variable names are. *)
Theorem C25_names : forall groups pt args ts ref c,
  Forall2 (described groups) args ts -> add_composite_objective groups pt args ref = Ok c ->
  Forall (fun t : string * string * Q =>
            all_chars ident_char (fst (fst t)) /\
            all_chars (fun x => ident_char x \/ x = ":"%char) (snd (fst t))) ts ->
  Forall (fun x => all_chars ident_char (t_input x)) (c_terms c).
Proof.
  intros groups pt args ts ref c D E F.
  destruct (composite_described groups pt args ts ref D) as (q&_&E'). rewrite E in E'. injection E' as ->.
  cbn [c_terms]. rewrite map_map. apply Forall_map. eapply Forall_impl; [|exact F].
  intros [[m o] w] [A B]. cbn [fst snd term_of named t_input] in *.
  apply all_chars_app. split; [exact A|]. cbn [append all_chars]. split; [unfold ident_char; cbn; lia|].
  apply replace_colon_ident. unfold full_name, short_names. cbn [dget].
  repeat (destruct (String.eqb o _); [cbn; unfold ident_char; cbn; intuition lia|]). exact B.
Qed.
Print Assumptions C25_names.

(** ** Witnesses *)
Definition two_args : list arg := [PTuple [EStr "heavy"; EStr "fuel_burned"; ENum 3]; PTuple [EStr "light"; EStr "mission:co2"]].
Definition two_triples : list (string * string * Q) := [("heavy", "fuel_burned", 3%Q); ("light", "mission:co2", 1%Q)].

Example C25_witness :
  Forall2 (described ["heavy"; "light"]) two_args two_triples /\ (total two_triples == 4)%Q /\
  add_composite_objective ["heavy"; "light"] MULTI_MISSION two_args None =
    Ok {| c_terms := [{| t_input := "heavy_mission_fuel_mass"; t_weight := 3; t_total := 4 |};
                      {| t_input := "light_mission_co2"; t_weight := 1; t_total := 4 |}]%Q;
          c_connects := [("heavy.mission:fuel_mass", "composite_function.heavy_mission_fuel_mass");
                         ("light.mission:co2", "composite_function.light_mission_co2")];
          c_ref := None |} /\
  eval_terms (fun n => if String.eqb n "heavy_mission_fuel_mass" then 8%Q else 4%Q)
    [{| t_input := "heavy_mission_fuel_mass"; t_weight := 3; t_total := 4 |};
     {| t_input := "light_mission_co2"; t_weight := 1; t_total := 4 |}]%Q = Ok (112 # 16)%Q.
Proof.
  split; [|split; [reflexivity|split; vm_compute; reflexivity]].
  constructor; [apply d_full; now left|]. constructor; [apply d_model_output; right; now left|constructor].
Qed.

Example C25_witness_reference :
  rbind (add_composite_objective [] SIZING [PStr "mass"] None) (fun c => Ok (c_ref c)) = Ok (Some (- 50000 # 1)%Q) /\
  rbind (add_composite_objective [] SIZING [PStr "time"] None) (fun c => Ok (c_ref c)) = Ok None /\
  rbind (add_composite_objective [] SIZING [PStr "mass"; PStr "fuel"] None) (fun c => Ok (c_ref c)) = Ok None.
Proof. repeat split; vm_compute; reflexivity. Qed.

(** ** What does not hold *)

(** Docstring L873: without arguments the objective is inferred from the problem type. *)
Theorem C25_no_arguments_refuted :
  ~ (forall groups pt ref, pt <> MULTI_MISSION ->
     exists c, add_composite_objective groups pt [] ref = Ok c /\ c_terms c <> []).
Proof. intro H. destruct (H [] SIZING None) as (c&E&N); [discriminate|]. injection E as <-. now apply N. Qed.
Print Assumptions C25_no_arguments_refuted.

(** Docstring L879-883: an argument that cannot be parsed raises ValueError. *)
Theorem C25_malformed_rejected_refuted :
  ~ (forall groups pt args ref a, In a args -> malformed a ->
     add_composite_objective groups pt args ref = Err ValueError).
Proof. intro H. specialize (H [] SIZING [POther] None POther (or_introl eq_refl) (or_introl eq_refl)). vm_compute in H. discriminate. Qed.
Print Assumptions C25_malformed_rejected_refuted.

Theorem C25_wrong_weight_kind_refuted :
  ~ (forall groups pt args ref e, add_composite_objective groups pt args ref = Err e -> e = ValueError).
Proof.
  intro H. specialize (H ["a"] SIZING [PTuple [EStr "a"; EStr "mass"; EStr "heavy"]] None TypeError).
  discriminate H. vm_compute. reflexivity.
Qed.
Print Assumptions C25_wrong_weight_kind_refuted.

(** What a malformed argument means: the default objective of the problem type, silently. *)
Theorem C25_malformed_replaced : forall groups pt a ref, malformed a -> pt <> MULTI_MISSION ->
  exists c, add_composite_objective groups pt [a] ref = Ok c /\
  map fst (c_connects c) =
    [if match pt with OFF_DESIGN_MAX_RANGE => true | _ => false end
     then "model.mission:objectives:range" else "model.mission:objectives:fuel"].
Proof.
  intros groups pt a ref M N.
  assert (P : parse_arg groups pt a = parse_arg groups pt POther).
  { destruct M as [->|(l&->&A&B)]; [reflexivity|].
    destruct l as [|e1 [|e2 [|e3 [|e4 l]]]]; cbn in A, B; try lia; reflexivity. }
  unfold add_composite_objective. cbn [parse_args]. rewrite P.
  destruct pt; [| | |contradiction]; cbn; (eexists; split; [reflexivity|]); reflexivity.
Qed.
Print Assumptions C25_malformed_replaced.

(** The objective orders designs like the weighted sum the caller wrote, if the weights have a
    positive total. *)
Definition orders_like_sum (P : Q -> Prop) : Prop :=
  forall groups pt args ts ref c val inputs val' inputs' v v',
  Forall2 (described groups) args ts -> P (total ts) ->
  add_composite_objective groups pt args ref = Ok c ->
  connected val inputs (c_connects c) -> connected val' inputs' (c_connects c) ->
  eval_terms inputs (c_terms c) = Ok v -> eval_terms inputs' (c_terms c) = Ok v' ->
  (v < v' <-> weighted val ts < weighted val' ts)%Q.

Theorem C25_direction : orders_like_sum (fun t => 0 < t)%Q.
Proof.
  intros groups pt args ts ref c val inputs val' inputs' v v' D T E C C' V V'.
  assert (N : ~ (total ts == 0)%Q) by (intro Z; rewrite Z in T; apply (Qlt_irrefl _ T)).
  destruct (composite_value groups pt args ts ref D N) as (c'&E'&H). rewrite E in E'. injection E' as <-.
  destruct (H _ _ C) as (u&U&Hu). rewrite V in U. injection U as <-.
  destruct (H _ _ C') as (u'&U'&Hu'). rewrite V' in U'. injection U' as <-.
  rewrite Hu, Hu'. split; intro K.
  - apply (Qmult_lt_r _ _ (total ts) T) in K.
    setoid_replace (weighted val ts / total ts * total ts)%Q with (weighted val ts) in K by (now field).
    setoid_replace (weighted val' ts / total ts * total ts)%Q with (weighted val' ts) in K by (now field). exact K.
  - apply (Qmult_lt_r _ _ (total ts) T).
    setoid_replace (weighted val ts / total ts * total ts)%Q with (weighted val ts) by (now field).
    setoid_replace (weighted val' ts / total ts * total ts)%Q with (weighted val' ts) by (now field). exact K.
Qed.
Print Assumptions C25_direction.

(** With a negative total the optimiser is sent the other way: fuel - 2*range becomes 2*range - fuel. *)
Definition fuel_range : list arg := [PTuple [EStr "mission:a"; ENum 1]; PTuple [EStr "mission:b"; ENum (-2)]].
Theorem C25_direction_refuted : ~ orders_like_sum (fun t => ~ (t == 0))%Q.
Proof.
  intro H.
  set (i1 := fun n : string => if String.eqb n "model_mission_a" then 1%Q else 0%Q).
  set (v1 := fun n : string => if String.eqb n "model.mission:a" then 1%Q else 0%Q).
  specialize (H [] SIZING fuel_range [("model", "mission:a", 1); ("model", "mission:b", -2)]%Q None
    {| c_terms := [{| t_input := "model_mission_a"; t_weight := 1; t_total := -1 |};
                   {| t_input := "model_mission_b"; t_weight := -2; t_total := -1 |}]%Q;
       c_connects := [("model.mission:a", "composite_function.model_mission_a");
                      ("model.mission:b", "composite_function.model_mission_b")];
       c_ref := None |} v1 i1 (fun _ => 0%Q) (fun _ => 0%Q) (- 1 # 1)%Q 0%Q).
  assert (K : (- 1 # 1 < 0)%Q) by (unfold Qlt; cbn; lia).
  apply H in K.
  - vm_compute in K. discriminate.
  - repeat constructor; cbn; tauto.
  - vm_compute. discriminate.
  - vm_compute. reflexivity.
  - intros s n [I|[I|[]]]; cbn in I; injection I as <- <-; reflexivity.
  - intros s n _. reflexivity.
  - vm_compute. reflexivity.
  - vm_compute. reflexivity.
Qed.
Print Assumptions C25_direction_refuted.

(** The default model name need not be one of the models of the problem. *)
Theorem C25_default_model_refuted :
  ~ (forall groups pt args ts ref c, Forall2 (described groups) args ts ->
     add_composite_objective groups pt args ref = Ok c ->
     Forall (fun t => In (fst (fst t)) groups) ts).
Proof.
  intro H. specialize (H ["model1"; "model2"] MULTI_MISSION [PStr "fuel"] [("model", "fuel", 1%Q)] None
    {| c_terms := [{| t_input := "model_mission_objectives_fuel"; t_weight := 1; t_total := 1 |}]%Q;
       c_connects := [("model.mission:objectives:fuel", "composite_function.model_mission_objectives_fuel")];
       c_ref := Some (10000 # 1)%Q |}).
  assert (F : Forall (fun t : string * string * Q => In (fst (fst t)) ["model1"; "model2"]) [("model", "fuel", 1%Q)]).
  { apply H; [|vm_compute; reflexivity]. constructor; [|constructor]. apply d_output. cbn. intuition discriminate. }
  inversion F as [|? ? I _]. cbn in I. intuition discriminate.
Qed.
Print Assumptions C25_default_model_refuted.

(** Two different outputs may be fed into one input of the component. *)
Theorem C25_inputs_distinct_refuted :
  ~ (forall groups pt args ts ref c s1 s2 n, Forall2 (described groups) args ts ->
     add_composite_objective groups pt args ref = Ok c ->
     In (s1, n) (c_connects c) -> In (s2, n) (c_connects c) -> s1 = s2).
Proof.
  intro H. specialize (H ["a"; "a_b"] MULTI_MISSION
    [PTuple [EStr "a"; EStr "b:c"]; PTuple [EStr "a_b"; EStr "c"]] [("a", "b:c", 1%Q); ("a_b", "c", 1%Q)] None
    {| c_terms := [{| t_input := "a_b_c"; t_weight := 1; t_total := 2 |}; {| t_input := "a_b_c"; t_weight := 1; t_total := 2 |}]%Q;
       c_connects := [("a.b:c", "composite_function.a_b_c"); ("a_b.c", "composite_function.a_b_c")];
       c_ref := None |} "a.b:c" "a_b.c" "composite_function.a_b_c").
  discriminate H; [|vm_compute; reflexivity|now left|right; now left].
  constructor; [apply d_model_output; now left|]. constructor; [apply d_model_output; right; now left|constructor].
Qed.
Print Assumptions C25_inputs_distinct_refuted.

(** ** Separate mission and output weights *)
Theorem C25_adv_normalised : forall ms os mw ow ts cs,
  (forall l, mw = Some l -> List.length l = List.length ms) ->
  (forall l, ow = Some l -> List.length l = List.length os) -> ms <> [] -> os <> [] ->
  add_composite_objective_adv ms os mw ow = Ok (ts, cs) ->
  (fold_right Qplus 0 (map (fun t => a_output_weight t * a_mission_weight t) ts) == 1)%Q /\
  map a_input ts = flat_map (fun m => map (fun o => m ++ "_" ++ o) os) ms.
Proof.
  intros ms os mw ow ts cs Lm Lo Nm No. unfold add_composite_objective_adv.
  set (mw0 := match mw with Some l => l | None => ones (List.length ms) end).
  set (ow0 := match ow with Some l => l | None => ones (List.length os) end).
  assert (L1 : List.length mw0 = List.length ms).
  { subst mw0. destruct mw as [l|]; [now apply Lm|]. apply repeat_length. }
  assert (L2 : List.length ow0 = List.length os).
  { subst ow0. destruct ow as [l|]; [now apply Lo|]. apply repeat_length. }
  clearbody mw0 ow0.
  destruct (normalise ow0) as [ow'|] eqn:NO; [|discriminate]. cbn [rbind].
  destruct (normalise mw0) as [mw'|] eqn:NM; [|discriminate]. cbn [rbind]. intros [= <- <-].
  assert (O0 : ow0 <> []) by (intros ->; destruct os; [contradiction|discriminate]).
  assert (M0 : mw0 <> []) by (intros ->; destruct ms; [contradiction|discriminate]).
  destruct (normalise_total ow0 ow' O0 NO) as (T1&E1&_). destruct (normalise_total mw0 mw' M0 NM) as (T2&E2&_).
  assert (K1 : List.length ms = List.length mw') by (rewrite E2, map_length; congruence).
  assert (K2 : List.length os = List.length ow') by (rewrite E1, map_length; congruence).
  split.
  - rewrite map_map. cbn [a_output_weight a_mission_weight].
    pose proof (adv_total ms os mw' ow' K1 K2) as A. unfold qtotal at 1 in A. rewrite A, T1, T2. reflexivity.
  - rewrite map_map. cbn [a_input]. clear - K1 K2.
    revert mw' K1. induction ms as [|m ms IH]; intros [|w mw'] K1; cbn in K1; try discriminate; [reflexivity|].
    cbn [combine flat_map]. rewrite map_app, map_map. cbn [fst snd]. f_equal; [|apply IH; lia].
    clear - K2. revert ow' K2. induction os as [|o os IH]; intros [|w' ow'] K2; cbn in K2; try discriminate; [reflexivity|].
    cbn [combine map fst]. f_equal. apply IH. lia.
Qed.
Print Assumptions C25_adv_normalised.

(** [connect(source, target)] is called with the component's input as the source. *)
Theorem C25_adv_direction_refuted :
  ~ (forall ms os mw ow ts cs m o, add_composite_objective_adv ms os mw ow = Ok (ts, cs) ->
     In m ms -> In o os -> In (m ++ "." ++ o, "composite_function." ++ m ++ "_" ++ o) cs).
Proof.
  intro H. specialize (H ["model1"] ["fuelburn"] None None
    [{| a_input := "model1_fuelburn"; a_output_weight := 1 / 1; a_mission_weight := 1 / 1 |}]%Q
    [("composite_function.model1_fuelburn", "model1.fuelburn")] "model1" "fuelburn").
  destruct H as [H|[]]; [vm_compute; reflexivity|now left|now left|discriminate].
Qed.
Print Assumptions C25_adv_direction_refuted.

Theorem C25_adv_connects : forall ms os mw ow ts cs s t,
  add_composite_objective_adv ms os mw ow = Ok (ts, cs) -> In (s, t) cs ->
  exists m o, In m ms /\ In o os /\ s = "composite_function." ++ m ++ "_" ++ o /\ t = m ++ "." ++ o.
Proof.
  intros ms os mw ow ts cs s t. unfold add_composite_objective_adv.
  destruct (normalise (match ow with Some l => l | None => _ end)) as [ow'|]; [|discriminate]. cbn [rbind].
  destruct (normalise (match mw with Some l => l | None => _ end)) as [mw'|]; [|discriminate]. cbn [rbind].
  intros [= <- <-] I. apply in_map_iff in I as (p&[= <- <-]&I). apply in_flat_map in I as ([m x]&Im&I).
  apply in_map_iff in I as ([o y]&<-&Io). cbn [fst snd]. exists m, o.
  split; [eapply in_combine_l; eauto|]. split; [eapply in_combine_l; eauto|]. auto.
Qed.
Print Assumptions C25_adv_connects.

(** The names in its expression keep the colons of the documented outputs. *)
Theorem C25_adv_names_refuted :
  ~ (forall ms os mw ow ts cs,
     Forall (all_chars ident_char) ms -> Forall (all_chars (fun c => ident_char c \/ c = ":"%char)) os ->
     add_composite_objective_adv ms os mw ow = Ok (ts, cs) ->
     Forall (fun t => all_chars ident_char (a_input t)) ts).
Proof.
  intro H. specialize (H ["m"] ["m:x"] None None
    [{| a_input := "m_m:x"; a_output_weight := 1 / 1; a_mission_weight := 1 / 1 |}]%Q
    [("composite_function.m_m:x", "m.m:x")]).
  assert (F : Forall (fun t => all_chars ident_char (a_input t))
                [{| a_input := "m_m:x"; a_output_weight := 1 / 1; a_mission_weight := 1 / 1 |}]%Q).
  { apply H; [| |vm_compute; reflexivity].
    - constructor; [|constructor]. cbn. unfold ident_char. cbn. split; [lia|exact I].
    - constructor; [|constructor]. cbn. unfold ident_char. cbn. intuition lia. }
  apply Forall_inv in F. cbn [a_input all_chars] in F. destruct F as (_&_&_&K&_). unfold ident_char in K. cbn in K. lia.
Qed.
Print Assumptions C25_adv_names_refuted.

Example C25_adv_witness :
  add_composite_objective_adv ["m1"; "m2"] ["a"; "b"] None (Some [2; 1]%Q) =
  Ok ([{| a_input := "m1_a"; a_output_weight := 2 / 3; a_mission_weight := 1 / 2 |};
       {| a_input := "m1_b"; a_output_weight := 1 / 3; a_mission_weight := 1 / 2 |};
       {| a_input := "m2_a"; a_output_weight := 2 / 3; a_mission_weight := 1 / 2 |};
       {| a_input := "m2_b"; a_output_weight := 1 / 3; a_mission_weight := 1 / 2 |}]%Q,
      [("composite_function.m1_a", "m1.a"); ("composite_function.m1_b", "m1.b");
       ("composite_function.m2_a", "m2.a"); ("composite_function.m2_b", "m2.b")]).
Proof. vm_compute. reflexivity. Qed.

(** ** The plain objective *)
Theorem C25_objective : forall o pt ref,
  add_objective o pt ref =
  match o with
  | Some s =>
    match dget s [("mass", OMass); ("time", OTime); ("hybrid_objective", OHybrid);
                  ("fuel_burned", OVar "mission:fuel_mass"); ("fuel", OVar "mission:objectives:fuel")] with
    | Some OHybrid => Ok (OHybrid, None)
    | Some t =>
        Ok (t, match ref with
               | Some q => Some q
               | None => match dget s [("mass", 50000 # 1); ("fuel_burned", 10000 # 1); ("fuel", 10000 # 1)]%Q with
                         | Some q => Some q | None => Some 1%Q end
               end)
    | None => Err ValueError
    end
  | None =>
    match pt with
    | MULTI_MISSION => Err ValueError
    | OFF_DESIGN_MAX_RANGE => Ok (OVar "mission:objectives:range", match ref with Some q => Some q | None => Some 1%Q end)
    | _ => Ok (OVar "mission:objectives:fuel", match ref with Some q => Some q | None => Some 1%Q end)
    end
  end.
Proof.
  intros [s|] pt ref; [|destruct pt, ref; reflexivity].
  unfold add_objective, default_ref. cbn [dget].
  destruct (String.eqb s "mass") eqn:A; [destruct ref; reflexivity|].
  destruct (String.eqb s "time") eqn:B.
  { apply String.eqb_eq in B. subst s. destruct ref; reflexivity. }
  destruct (String.eqb s "hybrid_objective") eqn:C; [destruct ref; reflexivity|].
  destruct (String.eqb s "fuel_burned"); [destruct ref; reflexivity|].
  destruct (String.eqb s "fuel"); destruct ref; reflexivity.
Qed.
Print Assumptions C25_objective.

(** The same short name is minimised by one builder and maximised by the other: a negative reference
    maximises (docstring L671-673). *)
Theorem C25_same_direction_refuted :
  ~ (forall s t q c r, add_objective (Some s) SIZING None = Ok (t, Some q) ->
     add_composite_objective [] SIZING [PStr s] None = Ok c -> c_ref c = Some r -> (0 < q <-> 0 < r)%Q).
Proof.
  intro H. destruct (H "mass" OMass (50000 # 1)%Q
    {| c_terms := [{| t_input := "model_mission_final_mass"; t_weight := 1; t_total := 1 |}]%Q;
       c_connects := [("model.mission:final_mass", "composite_function.model_mission_final_mass")];
       c_ref := Some (- 50000 # 1)%Q |} (- 50000 # 1)%Q) as [K _]; try (vm_compute; reflexivity).
  assert (P : (0 < 50000 # 1)%Q) by (unfold Qlt; cbn; lia). apply K in P. unfold Qlt in P. cbn in P. lia.
Qed.
Print Assumptions C25_same_direction_refuted.

Example C25_objective_witness :
  add_objective (Some "fuel") MULTI_MISSION None = Ok (OVar "mission:objectives:fuel", Some (10000 # 1)%Q) /\
  add_objective (Some "range") SIZING None = Err ValueError /\
  add_objective None OFF_DESIGN_MAX_RANGE None = Ok (OVar "mission:objectives:range", Some 1%Q).
Proof. repeat split. Qed.
