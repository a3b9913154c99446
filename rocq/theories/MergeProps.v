(** Properties C10 (metadata merge) and C11 (hierarchy merge). *)
From Coq Require Import QArith Qabs.
From Verif Require Import Base MergeModel MergeProofs.
Open Scope nat_scope.

(** ** C10 *)
(** Accepted exactly when every definition of a variable agrees with the first definition of it. *)
Theorem C10_accepts_iff_definitions_agree :
  forall py, reflexive_on_others py -> forall ds, ds <> [] -> Forall wf_dict ds ->
    (is_ok (merge_meta_data py ds) = true <->
     forall d k w, In d ds -> dget k d = Some w -> exists v, first_def k ds = Some v /\ agrees py v w).
Proof. intros py R ds N W. apply (merge_meta_iff py R ds N W). Qed.
Print Assumptions C10_accepts_iff_definitions_agree.

(** The result holds, for every variable, the first definition found, and nothing else. *)
Theorem C10_result_is_union_first_wins :
  forall py, reflexive_on_others py -> forall ds x, ds <> [] -> Forall wf_dict ds ->
    merge_meta_data py ds = Ok x ->
    NoDup (dkeys x) /\ (forall k, dget k x = first_def k ds) /\
    (forall k, In k (dkeys x) <-> exists d, In d ds /\ In k (dkeys d)).
Proof.
  intros py R ds x N W H. destruct (merge_meta_iff py R ds N W) as (_ & A & _). destruct (A x H) as [A1 A2].
  split; [exact A1|]. split; [exact A2|]. intro k. rewrite <- dget_Some_keys. rewrite A2. clear.
  induction ds as [|d r IH]; simpl.
  - split; [intros [v Hv]; discriminate|intros (d & [] & _)].
  - destruct (dget k d) as [v|] eqn:E.
    + split; [intros _; exists d; split; [now left|]|eauto]. apply dget_Some_keys. eauto.
    + rewrite IH. split.
      * intros (g & Hg & K). exists g. auto.
      * intros (g & [<-|Hg] & K); [|eauto]. apply dget_None_keys in E. contradiction.
Qed.
Print Assumptions C10_result_is_union_first_wins.

Theorem C10_errors :
  forall py, reflexive_on_others py ->
    merge_meta_data py [] = Err IndexError /\
    forall ds e, ds <> [] -> Forall wf_dict ds -> merge_meta_data py ds = Err e -> e = ValueError.
Proof. intros py R. split; [reflexivity|]. intros ds e N W. apply (merge_meta_iff py R ds N W). Qed.
Print Assumptions C10_errors.

Definition py0 (a b : mval) : bool :=
  match a, b with MOther n, MOther m => Nat.eqb n m | _, _ => false end.
Lemma py0_refl : reflexive_on_others py0.
Proof. intro n. simpl. apply Nat.eqb_refl. Qed.

Definition near1 : Q := (1 + (1 # 100000000) + (1 # 20000000000000000))%Q.

(** The tolerance is relative to the second value, so acceptance depends on the order of the list. *)
Theorem C10_order_independence_refuted :
  let d1 := [("x", MDict [("default_value", MFloat 1)])] in
  let d2 := [("x", MDict [("default_value", MFloat near1)])] in
  is_ok (merge_meta_data py0 [d1; d2]) = true /\ merge_meta_data py0 [d2; d1] = Err ValueError.
Proof. vm_compute. split; reflexivity. Qed.
Print Assumptions C10_order_independence_refuted.

Example C10_witness :
  merge_meta_data py0 [[("a", MDict [("units", MOther 1)])]; [("b", MArr [2%Q]); ("a", MDict [("units", MOther 1)])]]
    = Ok [("a", MDict [("units", MOther 1)]); ("b", MArr [2%Q])] /\
  merge_meta_data py0 [[("a", MOther 1)]; [("a", MOther 2)]] = Err ValueError.
Proof. split; vm_compute; reflexivity. Qed.

(** ** C11 *)
(** Without a name that is a variable in one hierarchy and a class in another: accepted exactly when no
    path has two different strings ... *)
Theorem C11_accepts_iff_no_conflict :
  forall hs, hs <> [] -> Forall wf_h hs -> ForallOrdPairs (fun a b => ~ kind_clash a b) hs ->
    (is_ok (merge_hierarchies hs) = true <-> ForallOrdPairs (fun a b => ~ conflict a b) hs).
Proof. exact merge_accepts. Qed.
Print Assumptions C11_accepts_iff_no_conflict.

(** ... and then a path leads to a string in the result iff it does so in some input. *)
Theorem C11_result_is_union :
  forall hs m, Forall wf_h hs -> ForallOrdPairs (fun a b => ~ kind_clash a b) hs -> merge_hierarchies hs = Ok m ->
    wf_h m /\ forall p s, lookup m p = Some s <-> exists h, In h hs /\ lookup h p = Some s.
Proof. exact merge_union. Qed.
Print Assumptions C11_result_is_union.

(** A conflict is always reported, clash or no clash. *)
Theorem C11_conflict_rejected :
  forall hs, Forall wf_h hs -> ~ ForallOrdPairs (fun a b => ~ conflict a b) hs ->
    merge_hierarchies hs = Err ValueError.
Proof. exact merge_rejects. Qed.
Print Assumptions C11_conflict_rejected.

(** Without the clash hypothesis paths get lost silently: a variable replaces a whole class ... *)
Theorem C11_kind_clash_refuted :
  let a := [("Wing", Cls [("AREA", Var "aircraft:wing:area")])] in
  let b := [("Wing", Var "wing")] in
  exists m, merge_hierarchies [a; b] = Ok m /\
            lookup a ["Wing"; "AREA"] = Some "aircraft:wing:area" /\ lookup m ["Wing"; "AREA"] = None.
Proof. eexists. repeat split. Qed.
Print Assumptions C11_kind_clash_refuted.

(** The merge changes the classes it was given: the first class (deepcopy returns it unchanged) and, through
    shared references, the inner classes of later ones. *)
Theorem C11_inputs_unchanged_refuted :
  let st := [ [("Engine", HRef 1)];            (* 0: first hierarchy *)
              [("MASS", HVar "m")];            (* 1: its Engine *)
              [("Wing", HRef 3)];              (* 2: second hierarchy *)
              [("AREA", HVar "a")];            (* 3: its Wing *)
              [("Wing", HRef 5)];              (* 4: third hierarchy *)
              [("SPAN", HVar "s")] ] in        (* 5: its Wing *)
  let (st', r) := merge_hierarchies_heap 5 st [0; 2; 4] in
  r = 0 /\ obj st' 0 = [("Engine", HRef 1); ("Wing", HRef 3)] /\
  obj st 0 <> obj st' 0 /\
  obj st' 3 = [("AREA", HVar "a"); ("SPAN", HVar "s")] /\ obj st 3 <> obj st' 3.
Proof. vm_compute. repeat split; discriminate. Qed.
Print Assumptions C11_inputs_unchanged_refuted.

Example C11_witness :
  merge_hierarchies [[("Engine", Cls [("MASS", Var "m")])]; [("Engine", Cls [("SCALE", Var "s")]); ("X", Var "x")]]
  = Ok [("Engine", Cls [("MASS", Var "m"); ("SCALE", Var "s")]); ("X", Var "x")].
Proof. reflexivity. Qed.
Example C11_witness_conflict :
  merge_hierarchies [[("Engine", Cls [("MASS", Var "m")])]; [("Engine", Cls [("MASS", Var "n")])]] = Err ValueError.
Proof. reflexivity. Qed.
