(** Aliasing model for [NamedValues.copy] / [deepcopy] (/repo/aviary/utils/named_values.py L86-112).

    Two kinds of mutable Python objects: mapping objects (the [_mapping] dict of one or more
    NamedValues instances) and value objects (lists, arrays) referenced from the mappings.
    A NamedValues instance is a reference to its mapping object. *)
From Verif Require Import Base.

Section Heap.
  Context {V : Type}.

  Record heap : Type := {
    maps : list (dict (nat * string));   (* mapping object: key -> (reference to value, units) *)
    vals : list V                        (* contents of the value objects *)
  }.
  Definition handle := nat.              (* index into [maps] *)

  Fixpoint upd {X} (n : nat) (x : X) (l : list X) : list X :=
    match l, n with
    | [], _ => []
    | _ :: l', O => x :: l'
    | y :: l', S n' => y :: upd n' x l'
    end.

  (** Calls through one handle.
      [HSet k v u]: [h.set_val(k, v, u)] with a newly built value object.
      [HShare k k2 u]: [h.set_val(k, h.get_item(k2)[0], u)] stores the same object twice.
      [HMutate k f]: in-place mutation of the object returned by [h.get_item(k)[0]]; get_item and
      get_val in stored units return the stored object itself, not a copy (L79-84, L141-151).
      [HDelete], [HClear] as in named_values.py L196, L253. *)
  Inductive hop : Type :=
  | HSet (k : string) (v : V) (u : string)
  | HShare (k k2 : string) (u : string)
  | HMutate (k : string) (f : V -> V)
  | HDelete (k : string)
  | HClear.

  Definition hmap (s : heap) (h : handle) : dict (nat * string) := nth h (maps s) [].

  Definition hstep (s : heap) (h : handle) (o : hop) : heap :=
    match o with
    | HSet k v u =>
        {| maps := upd h (dset k (length (vals s), u) (hmap s h)) (maps s);
           vals := vals s ++ [v] |}
    | HShare k k2 u =>
        match dget k2 (hmap s h) with
        | None => s                                                  (* KeyError *)
        | Some (r, _) => {| maps := upd h (dset k (r, u) (hmap s h)) (maps s); vals := vals s |}
        end
    | HMutate k f =>
        match dget k (hmap s h) with
        | None => s                                                  (* KeyError *)
        | Some (r, _) =>
            match nth_error (vals s) r with
            | None => s                                              (* dangling: never happens *)
            | Some v => {| maps := maps s; vals := upd r (f v) (vals s) |}
            end
        end
    | HDelete k => {| maps := upd h (ddel k (hmap s h)) (maps s); vals := vals s |}
    | HClear => {| maps := upd h [] (maps s); vals := vals s |}
    end.

  (** [copy] L86-98 is [copy.copy(self)]: the new instance's [_mapping] slot refers to the same
      dict object, so the new handle is the same mapping object. *)
  Definition copy (s : heap) (h : handle) : heap * handle := (s, h).

  (** [deepcopy] L100-112 is [copy.deepcopy(self)]: a new mapping object whose values are new objects;
      sharing inside the original is reproduced (the memo of copy.deepcopy).  The model duplicates the
      whole value store and shifts references, which gives exactly that sharing; unreferenced duplicates
      are garbage. *)
  Definition shift (n : nat) (d : dict (nat * string)) : dict (nat * string) :=
    map (fun e => match e with (k, (r, u)) => (k, (n + r, u)) end) d.
  Definition deepcopy (s : heap) (h : handle) : heap * handle :=
    ({| maps := maps s ++ [shift (length (vals s)) (hmap s h)];
        vals := vals s ++ vals s |}, length (maps s)).

  (** What can be read through a handle: keys in order with units and value contents. *)
  Definition observe (s : heap) (h : handle) : list (string * (option V * string)) :=
    map (fun e => match e with (k, (r, u)) => (k, (nth_error (vals s) r, u)) end) (hmap s h).

  (** A history of calls on several handles, in program order. *)
  Fixpoint hrun (s : heap) (l : list (handle * hop)) : heap :=
    match l with
    | [] => s
    | (h, o) :: l' => hrun (hstep s h o) l'
    end.
  (** Program states: containers are created empty (L52), mutated, copied and deep-copied. *)
  Definition empty_heap : heap := {| maps := []; vals := [] |}.
  Definition new (s : heap) : heap * handle := ({| maps := maps s ++ [[]]; vals := vals s |}, length (maps s)).
  Inductive reach : heap -> Prop :=
  | reach_empty : reach empty_heap
  | reach_new s : reach s -> reach (fst (new s))
  | reach_step s h o : reach s -> h < length (maps s) -> reach (hstep s h o)
  | reach_copy s h : reach s -> h < length (maps s) -> reach (fst (copy s h))
  | reach_deepcopy s h : reach s -> h < length (maps s) -> reach (fst (deepcopy s h)).

  Definition only (h : handle) (l : list (handle * hop)) : list (handle * hop) :=
    filter (fun p => Nat.eqb (fst p) h) l.
End Heap.
Arguments heap V : clear implicits.
Arguments hop V : clear implicits.
