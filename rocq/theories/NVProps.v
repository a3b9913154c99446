(** Properties C01, C02, C03: NamedValues containers. *)
From Coq Require Import Sorted.
From Verif Require Import Base NVModel NVSpec NVProofs NVHeapModel NVHeapProofs.

(** C01. Reads agree with the latest surviving write, for every history. *)
Theorem C01_get_item_latest_write :
  forall (A : Type) (h : list (op A)) (k : string),
    get_item (run [] h) k = match latest k h with Some it => Ok it | None => Err KeyError end.
Proof. exact (fun A h k => run_get k h). Qed.
Print Assumptions C01_get_item_latest_write.

(** C01. Iteration yields exactly the surviving writes, every key once, membership and length agree. *)
Theorem C01_iteration_is_the_latest_writes :
  forall (A : Type) (h : list (op A)),
    (forall k it, In (k, it) (items (run [] h)) <-> latest k h = Some it) /\
    (forall k, In k (keys (run [] h)) <-> latest k h <> None) /\
    (forall k, contains (run [] h) k = true <-> In k (keys (run [] h))) /\
    NoDup (keys (run [] h)) /\
    keys (run [] h) = map fst (items (run [] h)) /\
    len (run [] h) = length (keys (run [] h)).
Proof. exact (fun A h => run_iteration h). Qed.
Print Assumptions C01_iteration_is_the_latest_writes.

(** C01. Keys are iterated in the order of their first surviving write. *)
Theorem C01_iteration_order :
  forall (A : Type) (h : list (op A)), StronglySorted (older h) (keys (run [] h)).
Proof. exact (fun A h => run_keys_sorted h). Qed.
Print Assumptions C01_iteration_order.

(** A history with overwrites, a delete with re-insertion and a failed call: nothing is vacuous. *)
Example C01_witness :
  let h := [OSet "a" 1 (UStr "m"); OSet "b" 2 (UStr "s"); OSet "a" 3 (UStr "ft"); OSet "a" 9 UNone;
            ODelete "b"; OUpdate [Entry "c" 4 (UStr "kg"); Entry "b" 5 (UStr "s")] []] in
  items (run [] h) = [("a", (3, "ft")); ("c", (4, "kg")); ("b", (5, "s"))] /\
  latest "a" h = Some (3, "ft") /\ birth "a" h = Some 0 /\ birth "b" h = Some 5.
Proof. repeat split. Qed.

(** C02. set_val, delete and clear either succeed or leave the container as it was. *)
Theorem C02_single_calls_fail_without_effect :
  forall (A : Type) (c : nv A) (o : op A) (e : exn),
    (forall o1 kw, o <> OUpdate o1 kw) -> snd (step c o) = Err e -> fst (step c o) = c.
Proof. exact (fun A c o e => fail_unchanged c o e). Qed.
Print Assumptions C02_single_calls_fail_without_effect.

(** C02. Exactly which calls raise: set_val iff its units are not a string, delete iff the key is absent. *)
Theorem C02_which_calls_raise :
  forall (A : Type) (c : nv A),
    (forall k v u, snd (step c (OSet k v u)) = match u with UStr _ => Ok tt | _ => Err TypeError end) /\
    (forall k, snd (step c (ODelete k)) = if contains c k then Ok tt else Err KeyError) /\
    snd (step c OClear) = Ok tt.
Proof. exact call_outcomes. Qed.
Print Assumptions C02_which_calls_raise.

(** C02. update succeeds iff every entry is storable; a failing update has applied exactly the entries
    before the first entry that cannot be stored, and reports that entry's error. *)
Theorem C02_update_fails_after_exact_prefix :
  forall (A : Type) (c : nv A) (o1 kw : list (entry A)),
    (snd (update c o1 kw) = Ok tt <-> forallb storable (o1 ++ kw) = true) /\
    forall e, snd (update c o1 kw) = Err e ->
    exists pre x post, o1 ++ kw = pre ++ x :: post /\
      forallb storable pre = true /\ storable x = false /\
      (x = BadEntry e \/ (e = TypeError /\ exists k v u, x = Entry k v u)) /\
      fst (update c o1 kw) = fst (update c pre []) /\
      snd (update c pre []) = Ok tt.
Proof. exact (fun A c o1 kw => conj (update_ok_iff c o1 kw) (update_fail_split c o1 kw)). Qed.
Print Assumptions C02_update_fails_after_exact_prefix.

(** update is not atomic: a failing call can change the container. *)
Theorem C02_update_atomic_refuted :
  exists (c : nv nat) o1 kw e, snd (update c o1 kw) = Err e /\ fst (update c o1 kw) <> c.
Proof. exact update_not_atomic. Qed.
Print Assumptions C02_update_atomic_refuted.

(** C03. deepcopy: for every program state and every later history on the two handles, each handle sees
    exactly the effect of its own calls. *)
Theorem C03_deepcopy_isolates :
  forall (V : Type) (s : heap V) (h : handle),
    reach s -> h < length (maps s) ->
    let s' := fst (deepcopy s h) in let g := snd (deepcopy s h) in
    observe s' h = observe s h /\ observe s' g = observe s h /\
    forall l, (forall p, In p l -> fst p = h \/ fst p = g) ->
      observe (hrun s' l) h = observe (hrun s' (only h l)) h /\
      observe (hrun s' l) g = observe (hrun s' (only g l)) g.
Proof. exact (fun V s h => deepcopy_isolated_reach s h). Qed.
Print Assumptions C03_deepcopy_isolates.

(** C03. copy: the two handles are observationally the same container after any history ... *)
Theorem C03_copy_shares_everything :
  forall (V : Type) (s : heap V) (h : handle) l,
    let s' := fst (copy s h) in let g := snd (copy s h) in
    observe (hrun s' l) g = observe (hrun s' l) h.
Proof. exact (fun V s h l => copy_shared s h l). Qed.
Print Assumptions C03_copy_shares_everything.

(** ... so isolation fails for copy. *)
Theorem C03_copy_isolates_refuted :
  exists (s : heap nat) h o, reach s /\ h < length (maps s) /\
    let s' := fst (copy s h) in let g := snd (copy s h) in
    observe (hstep s' g o) h <> observe s' h.
Proof. exact copy_not_isolated. Qed.
Print Assumptions C03_copy_isolates_refuted.

(** deepcopy with a shared value object, a later in-place mutation on the original and a write on the copy. *)
Example C03_witness :
  let s0 := fst (new (@empty_heap nat)) in
  let s1 := hrun s0 [(0, HSet "a" 1 "m"); (0, HShare "b" "a" "m")] in
  let s2 := fst (deepcopy s1 0) in
  let l := [(0, HMutate "a" (fun x => x + 10)); (1, HSet "b" 7 "s")] in
  observe (hrun s2 l) 0 = [("a", (Some 11, "m")); ("b", (Some 11, "m"))] /\
  observe (hrun s2 l) 1 = [("a", (Some 1, "m")); ("b", (Some 7, "s"))].
Proof. split; reflexivity. Qed.
