(** Specification of NamedValues, written on the raw call history only. *)
From Verif Require Import Base NVModel.

Section Spec.
  Context {A : Type}.

  (** Atomic events a history gives rise to. *)
  Inductive ev : Type :=
  | EWrite (k : string) (v : A) (s : string)
  | EErase (k : string)
  | EEraseAll.

  (** A sequence of entries writes up to (excluding) the first one that cannot be stored. *)
  Fixpoint good_prefix (es : list (entry A)) : list ev :=
    match es with
    | Entry k v (UStr s) :: es' => EWrite k v s :: good_prefix es'
    | _ => []
    end.
  Definition storable (x : entry A) : bool :=
    match x with Entry _ _ (UStr _) => true | _ => false end.

  Definition events1 (o : op A) : list ev :=
    match o with
    | OSet k v (UStr s) => [EWrite k v s]
    | OSet _ _ _ => []
    | OUpdate o1 kw =>
        good_prefix o1 ++ (if forallb storable o1 then good_prefix kw else [])
    | ODelete k => [EErase k]
    | OClear => [EEraseAll]
    end.
  Definition events (h : list (op A)) : list ev := flat_map events1 h.

  (** Scan the history from its end: the first event that concerns [k] decides. *)
  Fixpoint latest_rev (k : string) (r : list ev) : option (A * string) :=
    match r with
    | [] => None
    | EWrite k' v s :: r' => if String.eqb k k' then Some (v, s) else latest_rev k r'
    | EErase k' :: r' => if String.eqb k k' then None else latest_rev k r'
    | EEraseAll :: _ => None
    end.
  Definition latest (k : string) (h : list (op A)) : option (A * string) :=
    latest_rev k (rev (events h)).

  (** Birth time of the present incarnation of [k]: the position of the first write of [k] that is
      not followed by an erasure of [k]. *)
  Fixpoint birth_aux (k : string) (n : nat) (cur : option nat) (l : list ev) : option nat :=
    match l with
    | [] => cur
    | EWrite k' _ _ :: l' =>
        birth_aux k (S n)
          (if String.eqb k k' then match cur with Some b => Some b | None => Some n end else cur) l'
    | EErase k' :: l' => birth_aux k (S n) (if String.eqb k k' then None else cur) l'
    | EEraseAll :: l' => birth_aux k (S n) None l'
    end.
  Definition birth (k : string) (h : list (op A)) : option nat := birth_aux k 0 None (events h).

  (** [k1] is older than [k2]. *)
  Definition older (h : list (op A)) (k1 k2 : string) : Prop :=
    exists b1 b2, birth k1 h = Some b1 /\ birth k2 h = Some b2 /\ b1 < b2.
End Spec.
Arguments ev A : clear implicits.
