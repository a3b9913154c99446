(** C27: saving a sized problem and reading it back. *)
From Coq Require Import QArith Qcanon Ascii.
From Verif Require Import Base NVModel UnitsModel UnitsProofs TypesModel TypesSpec TypesProofs CsvModel StrModel SaveModel SaveProofs.
Open Scope nat_scope.
Open Scope string_scope.
Open Scope list_scope.

(** Every table of savable values is written and read back: the entries that the metadata knows hold
    the value given by [returns] in the same units, the gross masses those of the sized problem, and
    nothing else is in the table. *)
Theorem C27_round_trip : forall W fu mg dg md cs mD,
  NoDup (dkeys cs) -> (forall k v u, In (k, (v, u)) cs -> savable W fu md k v u) ->
  dget DESIGN_GROSS md = Some mD -> (exists ts, m_types mD = Some ts /\ In TFloat ts) -> UnitsFit fu mD "lbm" ->
  exists recs c, fst (save_results W mg dg cs) = Ok recs /\ read_sizing W fu md recs = Ok c /\
  (forall k v u, In (k, (v, u)) cs -> reloaded W mg md k v u (dget k c)) /\
  (~ In DESIGN_GROSS (dkeys cs) -> dget DESIGN_GROSS c = Some (PFloat dg, "lbm")) /\
  (forall k, ~ In k (dkeys cs) -> k <> DESIGN_GROSS -> dget k c = None).
Proof. exact round_trip. Qed.
Print Assumptions C27_round_trip.

(** [returns] is not ambiguous where the types allow one reading, and is the identity on scalars. *)
Theorem C27_scalars_unchanged : forall W ts multi v v',
  returns W ts multi v v' -> is_iter v = false -> (forall s, v <> PPath s) -> v' = v.
Proof.
  intros W ts multi v v' R I N. destruct R; try reflexivity; try discriminate; exfalso; eapply N; reflexivity.
Qed.
Print Assumptions C27_scalars_unchanged.

(** All members of the enumerations of the metadata survive (by computation over the table). *)
Definition av_world (W : py) : Prop := forall c l, In (c, l) aviary_enums -> members W c = l.

Theorem C27_aviary_enums : forall W c l n x multi, av_world W ->
  In (c, l) aviary_enums -> In (n, x) l -> returns W [TEnum c] multi (PEnum c n) (PEnum c n).
Proof.
  intros W c l n x multi A I J. apply ret_enum; [reflexivity|intros [K|[]]; discriminate|].
  assert (M := A c l I). unfold plain_member. rewrite M. split; [exists x; exact J|].
  assert (B : upper n = n /\ (forall n', In (n', PStr n) l -> n' = n) /\
              Forall (fun a => (65 <= nat_of_ascii a <= 90 \/ 48 <= nat_of_ascii a <= 57 \/ a = "_"%char)%nat) (list_ascii_of_string n) /\
              (exists a n', n = String a n' /\ (65 <= nat_of_ascii a <= 90)%nat) /\ n <> "TRUE" /\ n <> "FALSE").
  { clear A M. unfold aviary_enums in I. cbn [In] in I.
    repeat match type of I with _ \/ _ => destruct I as [I|I] end; try contradiction;
    injection I as <- <-; cbn [In] in J;
    repeat match type of J with _ \/ _ => destruct J as [J|J] end; try contradiction;
    injection J as <- <-;
    (split; [reflexivity|]);
    (split; [intros n' K; cbn [In] in K; repeat match type of K with _ \/ _ => destruct K as [K|K] end;
             try contradiction; try discriminate K; injection K as <-; reflexivity|]);
    (split; [repeat (apply Forall_cons; [cbn; try (left; lia); try (right; left; lia); right; right; reflexivity|]); apply Forall_nil|]);
    (split; [eexists _, _; split; [reflexivity|cbn; lia]|]); split; discriminate. }
  destruct B as (B1&B2&B3&B4&B5&B6). rewrite Forall_forall in B3. repeat split; assumption.
Qed.
Print Assumptions C27_aviary_enums.

(** Only names in the metadata are read. *)
Theorem C27_unknown_dropped : forall W fu md es c k,
  read_sizing W fu md es = Ok c -> In k (dkeys c) -> In k (dkeys md).
Proof. intros W fu md es c k E. apply (read_known W fu md es [] c E). intros ? []. Qed.
Print Assumptions C27_unknown_dropped.

(** What saving leaves in the inputs of the problem: only lists can differ. *)
Theorem C27_inputs_after : forall W mg dg cs,
  Forall2 (fun a b => fst a = fst b /\ snd (snd a) = snd (snd b) /\
             (fst (snd b) = fst (snd a) \/
              is_gross (fst a) = false /\ exists l, fst (snd a) = PIter ListK l /\ prepare W (fst (snd a)) = Ok (fst (snd b))))
          cs (snd (save_results W mg dg cs)).
Proof. intros W mg dg cs. apply save_loop_left. Qed.
Print Assumptions C27_inputs_after.

(** The reloaded problem gets its gross mass from the file only if the saved inputs had one. *)
Theorem C27_reload_iff : forall W fu mg dg md cs mD mM,
  NoDup (dkeys cs) -> (forall k v u, In (k, (v, u)) cs -> savable W fu md k v u) ->
  dget DESIGN_GROSS md = Some mD -> (exists ts, m_types mD = Some ts /\ In TFloat ts) -> UnitsFit fu mD "lbm" ->
  dget MISSION_GROSS md = Some mM ->
  exists recs, fst (save_results W mg dg cs) = Ok recs /\
  (forall c it, reload W fu md recs = Ok (c, it) ->
     exists v u, In (MISSION_GROSS, (v, u)) cs /\ it = (PFloat (mg u), u)) /\
  ((exists v u, In (MISSION_GROSS, (v, u)) cs) -> exists c it, reload W fu md recs = Ok (c, it)) /\
  (~ In MISSION_GROSS (dkeys cs) -> reload W fu md recs = Err KeyError).
Proof.
  intros W fu mg dg md cs mD mM ND H ED F U EM.
  destruct (round_trip W fu mg dg md cs mD ND H ED F U) as (recs&c&S&R&Old&_&New).
  exists recs. split; [exact S|]. unfold reload. rewrite R. cbn [rbind].
  assert (K : forall v u, In (MISSION_GROSS, (v, u)) cs -> dget MISSION_GROSS c = Some (PFloat (mg u), u)).
  { intros v u I. specialize (Old _ _ _ I). unfold reloaded in Old. rewrite EM in Old. exact Old. }
  split; [|split].
  - intros c' it E. destruct (dget MISSION_GROSS c) as [x|] eqn:EX; [|discriminate]. injection E as <- <-.
    destruct (in_dec string_dec MISSION_GROSS (dkeys cs)) as [I|N].
    + unfold dkeys in I. apply in_map_iff in I. destruct I as ([k [v u]]&E&I). cbn in E. subst k.
      exists v, u. split; [exact I|]. specialize (K v u I). congruence.
    + rewrite New in EX; [discriminate|exact N|discriminate].
  - intros (v&u&I). rewrite (K v u I). eauto.
  - intro N. rewrite New; [reflexivity|exact N|discriminate].
Qed.
Print Assumptions C27_reload_iff.

(** ** Concrete tables *)
Definition W0 : py :=
  {| members := fun c => match dget c aviary_enums with Some l => l | None => [] end;
     int_enum := fun c => String.eqb c "Verbosity";
     parse_int := fun _ => None; parse_float := fun _ => None; to_str := fun _ => "" |}.

Definition mk (ts : list ptype) (multi : bool) (u : string) : meta := {| m_types := Some ts; m_multi := multi; m_units := u |}.
Definition no_units : string -> option unit_def := fun _ => None.
(** Units are left empty in the metadata so that every unit fits. *)
Definition md0 : dict meta :=
  [(DESIGN_GROSS, mk [TFloat] false ""); (MISSION_GROSS, mk [TFloat] false "");
   ("settings:mass_method", mk [TEnum "LegacyCode"] false ""); ("settings:verbosity", mk [TEnum "Verbosity"] false "");
   ("aircraft:wing:span", mk [TFloat] false ""); ("aircraft:engine:num_engines", mk [TInt] true "");
   ("aircraft:engine:data_file", mk [TStr; TPath] true ""); ("aircraft:engine:type", mk [TEnum "GASPEngineType"] true "")].

Definition cs0 : nv pv :=
  [("settings:mass_method", (PEnum "LegacyCode" "FLOPS", "unitless"));
   ("settings:verbosity", (PEnum "Verbosity" "BRIEF", "unitless"));
   ("aircraft:wing:span", (PFloat (Q2Qc (2357 # 20)), "ft"));
   ("aircraft:engine:num_engines", (PIter ArrK [PInt 2; PInt 1], "unitless"));
   ("aircraft:engine:data_file", (PPath "deck.csv", "unitless"));
   ("my:variable", (PInt 3, "unitless"));
   (MISSION_GROSS, (PFloat (Q2Qc 100000), "lbm"))].

Example C27_witness :
  (forall k v u, In (k, (v, u)) cs0 -> savable W0 no_units md0 k v u) /\ NoDup (dkeys cs0) /\
  exists recs, fst (save_results W0 (fun _ => Q2Qc 175000) (Q2Qc 180000) cs0) = Ok recs /\
  read_sizing W0 no_units md0 recs =
  Ok [("settings:mass_method", (PEnum "LegacyCode" "FLOPS", "unitless"));
      ("settings:verbosity", (PEnum "Verbosity" "BRIEF", "unitless"));
      ("aircraft:wing:span", (PFloat (Q2Qc (2357 # 20)), "ft"));
      ("aircraft:engine:num_engines", (PIter ListK [PInt 2; PInt 1], "unitless"));
      ("aircraft:engine:data_file", (PStr "deck.csv", "unitless"));
      (MISSION_GROSS, (PFloat (Q2Qc 175000), "lbm"));
      (DESIGN_GROSS, (PFloat (Q2Qc 180000), "lbm"))].
Proof.
  split; [|split].
  - intros k v u I. cbn [cs0 In] in I.
    assert (Aw : av_world W0).
    { intros c l J. unfold aviary_enums in J. cbn [In] in J.
      repeat match type of J with _ \/ _ => destruct J as [J|J] end; try contradiction; injection J as <- <-; reflexivity. }
    repeat match type of I with _ \/ _ => destruct I as [I|I] end; try contradiction; injection I as <- <- <-;
      (split; [|cbn; first [discriminate|reflexivity]]); unfold savable; cbn [md0 dget String.eqb Ascii.eqb Bool.eqb].
    all: change (is_gross ?x) with (is_gross x); cbn.
    1: split; [right; left; reflexivity|]. 1: exists [TEnum "LegacyCode"], (PEnum "LegacyCode" "FLOPS"); split; [reflexivity|].
    1: refine (C27_aviary_enums W0 _ _ _ _ _ Aw _ _); [do 5 right; now left|now left].
    1: split; [right; left; reflexivity|]. 1: exists [TEnum "Verbosity"], (PEnum "Verbosity" "BRIEF"); split; [reflexivity|].
    1: refine (C27_aviary_enums W0 _ _ _ _ _ Aw _ _); [do 7 right; now left|right; now left].
    1: split; [right; left; reflexivity|]. 1: eexists [TFloat], _; split; [reflexivity|].
    1: apply ret_scalar; right; right; left; eexists; split; [reflexivity|now left].
    1: split; [right; left; reflexivity|]. 1: exists [TInt], (PIter ListK [PInt 2; PInt 1]); split; [reflexivity|].
    1: apply (ret_numbers W0 [TInt] true TInt ArrK [PInt 2; PInt 1] _ true); try reflexivity; [now left| |discriminate|].
    1: constructor; [split; reflexivity|]; repeat constructor; discriminate.
    1: constructor; repeat constructor.
    1: split; [right; left; reflexivity|]. 1: eexists [TStr; TPath], _; split; [reflexivity|]. 1: apply ret_path_text; now left.
    1: intros _; eexists _, _, _; repeat split.
    split; [right; left; reflexivity|]. split; [|reflexivity]. eexists; split; [reflexivity|now left].
  - cbn. repeat constructor; cbn; intuition discriminate.
  - eexists. split; [vm_compute; reflexivity|]. vm_compute. reflexivity.
Qed.

(** ** Findings *)
Definition reads (cs : nv pv) : res (nv pv) :=
  rbind (fst (save_results W0 (fun _ => Q2Qc 175000) (Q2Qc 180000) cs)) (read_sizing W0 no_units md0).

(** A list of enums, one per engine, comes back as the first of them alone. *)
Theorem C27_enum_list_refuted :
  ~ (forall cs c k v u, reads cs = Ok c -> In (k, (v, u)) cs -> is_gross k = false -> In k (dkeys md0) ->
     (exists l, v = PIter ListK l) -> exists l, dget k c = Some (PIter ListK l, u)).
Proof.
  intro H.
  destruct (H [("aircraft:engine:type", (PIter ListK [PEnum "GASPEngineType" "TURBOPROP"; PEnum "GASPEngineType" "TURBOJET"], "unitless"))]
    [("aircraft:engine:type", (PEnum "GASPEngineType" "TURBOPROP", "unitless")); (DESIGN_GROSS, (PFloat (Q2Qc 180000), "lbm"))]
    "aircraft:engine:type" (PIter ListK [PEnum "GASPEngineType" "TURBOPROP"; PEnum "GASPEngineType" "TURBOJET"]) "unitless")
    as (l&E).
  - vm_compute. reflexivity.
  - now left.
  - reflexivity.
  - cbn. do 7 right. now left.
  - eauto.
  - cbn in E. discriminate.
Qed.
Print Assumptions C27_enum_list_refuted.

(** Saving changes the problem that is saved: its list of enums holds names afterwards. *)
Theorem C27_inputs_unchanged_refuted :
  ~ (forall W mg dg cs, snd (save_results W mg dg cs) = cs).
Proof.
  intro H.
  specialize (H W0 (fun _ => 0%Qc) 0%Qc [("aircraft:engine:type", (PIter ListK [PEnum "GASPEngineType" "TURBOPROP"], "unitless"))]).
  vm_compute in H. discriminate.
Qed.
Print Assumptions C27_inputs_unchanged_refuted.

(** One empty list makes the whole table unsavable. *)
Theorem C27_empty_list_refuted :
  ~ (forall W mg dg cs, (forall k v u, In (k, (v, u)) cs -> v = PIter ListK []) ->
     exists recs, fst (save_results W mg dg cs) = Ok recs).
Proof.
  intro H. destruct (H W0 (fun _ => 0%Qc) 0%Qc [("aircraft:engine:num_engines", (PIter ListK [], "unitless"))]) as (r&E).
  - intros k v u [I|[]]. now injection I.
  - vm_compute in E. discriminate.
Qed.
Print Assumptions C27_empty_list_refuted.

(** A path comes back as text, an array as a list. *)
Theorem C27_kind_kept_refuted :
  ~ (forall cs c k v u, reads cs = Ok c -> In (k, (v, u)) cs -> is_gross k = false -> In k (dkeys md0) -> dget k c = Some (v, u)).
Proof.
  intro H.
  specialize (H [("aircraft:engine:data_file", (PPath "deck.csv", "unitless"))]
    [("aircraft:engine:data_file", (PStr "deck.csv", "unitless")); (DESIGN_GROSS, (PFloat (Q2Qc 180000), "lbm"))]
    "aircraft:engine:data_file" (PPath "deck.csv") "unitless").
  cbn [dget] in H. discriminate H; [vm_compute; reflexivity|now left|reflexivity|cbn; do 6 right; now left].
Qed.
Print Assumptions C27_kind_kept_refuted.

(** The design gross mass of the problem is saved as the gross mass of the mission when the inputs
    name it. *)
Theorem C27_design_gross_refuted :
  ~ (forall W fu md mg dg cs recs c, fst (save_results W mg dg cs) = Ok recs -> read_sizing W fu md recs = Ok c ->
     forall q, dget DESIGN_GROSS c = Some (PFloat q, "lbm") -> q = dg).
Proof.
  intro H.
  specialize (H W0 no_units md0 (fun _ => Q2Qc 150000) (Q2Qc 180000) [(DESIGN_GROSS, (PFloat (Q2Qc 180000), "lbm"))]).
  specialize (H _ [(DESIGN_GROSS, (PFloat (Q2Qc 150000), "lbm"))] eq_refl).
  assert (E := H eq_refl (Q2Qc 150000) eq_refl). vm_compute in E. discriminate.
Qed.
Print Assumptions C27_design_gross_refuted.

(** A problem whose inputs name only the design gross mass cannot be reloaded. *)
Theorem C27_reload_refuted :
  ~ (forall W fu md mg dg cs recs, fst (save_results W mg dg cs) = Ok recs -> In DESIGN_GROSS (dkeys cs) ->
     exists r, reload W fu md recs = Ok r).
Proof.
  intro H.
  destruct (H W0 no_units md0 (fun _ => Q2Qc 150000) (Q2Qc 180000) [(DESIGN_GROSS, (PFloat (Q2Qc 180000), "lbm"))]
    [{| e_name := DESIGN_GROSS; e_value := JFloat (Q2Qc 150000); e_units := "lbm"; e_tag := TagOther |}]) as (r&E).
  - reflexivity.
  - now left.
  - vm_compute in E. discriminate.
Qed.
Print Assumptions C27_reload_refuted.

(** A gross mass given as a list can be saved but not read. *)
Theorem C27_gross_list_refuted :
  ~ (forall W fu md mg dg cs recs, fst (save_results W mg dg cs) = Ok recs -> exists c, read_sizing W fu md recs = Ok c).
Proof.
  intro H.
  destruct (H W0 no_units md0 (fun _ => Q2Qc 150000) (Q2Qc 180000) [(DESIGN_GROSS, (PIter ListK [PFloat (Q2Qc 180000)], "lbm"))]
    [{| e_name := DESIGN_GROSS; e_value := JFloat (Q2Qc 150000); e_units := "lbm"; e_tag := TagList |}]) as (r&E).
  - reflexivity.
  - vm_compute in E. discriminate.
Qed.
Print Assumptions C27_gross_list_refuted.

(** A list of enums is written as the list of their names, and this list stays in the inputs. *)
Theorem C27_enum_names : forall W mg dg k u (l : list (string * string)), is_gross k = false -> l <> [] ->
  let cs := [(k, (PIter ListK (map (fun m => PEnum (fst m) (snd m)) l), u))] in
  fst (save_results W mg dg cs) =
    Ok [{| e_name := k; e_value := JArr (map (fun m => JStr (snd m)) l); e_units := u; e_tag := TagList |};
        {| e_name := DESIGN_GROSS; e_value := JFloat dg; e_units := "lbm"; e_tag := TagOther |}] /\
  snd (save_results W mg dg cs) = [(k, (PIter ListK (map (fun m => PStr (snd m)) l), u))].
Proof.
  intros W mg dg k u l G N cs. subst cs. unfold save_results. cbn [save_loop]. rewrite G.
  assert (M : forall l, map_res enum_name (map (fun m => PEnum (fst m) (snd m)) l) = Ok (map (fun m : string * string => PStr (snd m)) l)).
  { clear. induction l as [|m l IH]; [reflexivity|]. cbn [map map_res enum_name rbind]. rewrite IH. reflexivity. }
  assert (P : prepare W (PIter ListK (map (fun m => PEnum (fst m) (snd m)) l)) = Ok (PIter ListK (map (fun m => PStr (snd m)) l))).
  { destruct l as [|m l]; [congruence|]. cbn [map prepare]. pose proof (M (m :: l)) as E. cbn [map] in E. rewrite E. reflexivity. }
  rewrite P. cbn [fst snd rbind left_behind].
  assert (D : dmem DESIGN_GROSS [(k, (PIter ListK (map (fun m => PEnum (fst m) (snd m)) l), u))] = false).
  { unfold dmem. cbn [dget]. unfold is_gross in G. apply Bool.orb_false_iff in G. rewrite String.eqb_sym, (proj2 G). reflexivity. }
  rewrite D. cbn [app map_res dump_entry]. cbn [tag_of].
  assert (J : dump W (PIter ListK (map (fun m : string * string => PStr (snd m)) l)) = Ok (JArr (map (fun m => JStr (snd m)) l))).
  { clear. cbn [dump].
    assert (E : (fix go (l : list pv) : res (list json) :=
       match l with [] => Ok [] | x :: l' => rbind (dump W x) (fun y => rbind (go l') (fun ys => Ok (y :: ys))) end)
       (map (fun m : string * string => PStr (snd m)) l) = Ok (map (fun m => JStr (snd m)) l)).
    { induction l as [|m l IH]; [reflexivity|]. cbn [map dump rbind]. rewrite IH. reflexivity. }
    rewrite E. reflexivity. }
  rewrite J. split; reflexivity.
Qed.
Print Assumptions C27_enum_names.

(** Enum texts of older files ("<Class.NAME: 'value'>") are reduced to the value. *)
Theorem C27_legacy_enum_text : forall before value,
  (forall a, In a (list_ascii_of_string value) -> is_noise a = false /\ a <> ":"%char) ->
  clean ("<" ++ before ++ ": '" ++ value ++ "'>")%string = list_ascii_of_string value.
Proof.
  intros before value H. unfold clean, lit.
  assert (A : forall s t, list_ascii_of_string (s ++ t)%string = list_ascii_of_string s ++ list_ascii_of_string t).
  { induction s as [|a s IH]; intro t; [reflexivity|]. cbn. now rewrite IH. }
  assert (L : forall p s r cur, p ":"%char = true -> List.last (split_on p cur (s ++ ":"%char :: r)) [] = List.last (split_on p [] r) []).
  { clear. intros p. assert (NE : forall l cur, split_on p cur l <> []) by (induction l as [|a l IH]; intro cur; cbn; [discriminate|destruct (p a); [discriminate|apply IH]]).
    assert (X : forall (x : str) l, l <> [] -> List.last (x :: l) [] = List.last l []) by (intros x [|y l] N; [congruence|reflexivity]).
    induction s as [|a s IH]; intros r cur P; cbn [app split_on].
    - rewrite P. now apply X.
    - destruct (p a); [rewrite X by apply NE|]; apply IH; exact P. }
  rewrite !A. cbn [list_ascii_of_string app].
  change (list_ascii_of_string before ++ ":"%char :: " "%char :: "'"%char :: list_ascii_of_string value ++ ["'"%char; ">"%char])
    with (list_ascii_of_string before ++ ":"%char :: (" "%char :: "'"%char :: list_ascii_of_string value ++ ["'"%char; ">"%char])).
  change ("<"%char :: list_ascii_of_string before ++ ":"%char :: (" "%char :: "'"%char :: list_ascii_of_string value ++ ["'"%char; ">"%char]))
    with (("<"%char :: list_ascii_of_string before) ++ ":"%char :: (" "%char :: "'"%char :: list_ascii_of_string value ++ ["'"%char; ">"%char])).
  rewrite L by reflexivity.
  rewrite split_none.
  - cbn [List.last rev app]. cbn [filter]. cbn [is_noise Ascii.eqb Bool.eqb orb negb]. rewrite filter_app.
    cbn [filter is_noise Ascii.eqb Bool.eqb orb negb]. rewrite app_nil_r.
    generalize (list_ascii_of_string value) H. clear. induction l as [|a l IH]; intro H; [reflexivity|].
    cbn [filter]. rewrite (proj1 (H a (or_introl eq_refl))). cbn [negb]. f_equal. apply IH. intros b Hb. apply H. now right.
  - intros a [<-|[<-|I]]; [reflexivity|reflexivity|]. apply in_app_iff in I. destruct I as [I|[<-|[<-|[]]]]; [|reflexivity|reflexivity].
    apply Bool.not_true_iff_false. intro E. apply (proj2 (H a I)). now apply Ascii.eqb_eq in E.
Qed.
Print Assumptions C27_legacy_enum_text.

Example C27_witness_legacy : clean "<LegacyCode.GASP: 'GASP'>" = list_ascii_of_string "GASP".
Proof. reflexivity. Qed.

(** A list that starts with text and holds a path further on cannot be saved. *)
Theorem C27_later_path_refuted :
  ~ (forall W mg dg k u s p, exists recs, fst (save_results W mg dg [(k, (PIter ListK [PStr s; PPath p], u))]) = Ok recs).
Proof. intro H. destruct (H W0 (fun _ => 0%Qc) 0%Qc "x" "unitless" "a.csv" "b.csv") as (r&E). vm_compute in E. discriminate. Qed.
Print Assumptions C27_later_path_refuted.
