(** Model of [NamedValues] (/repo/aviary/utils/named_values.py).

    Values are an arbitrary type [A].  The [units] argument of a call may be any Python object; what
    the code distinguishes is whether it is a [str] (lines 298-317). *)
From Verif Require Import Base.

Section NV.
  Context {A : Type}.

  (** The [units] argument: [None], a non-string object, or a string.
      named_values.py L307: [if (units is None) or not isinstance(units, str): raise TypeError]. *)
  Inductive uarg : Type := UNone | UOther | UStr (s : string).

  (** The [_mapping] slot (L52): key -> (val, units). *)
  Definition nv : Type := dict (A * string).

  (** [_check_units] L291-311. *)
  Definition check_units (u : uarg) : res string :=
    match u with
    | UNone => Err TypeError
    | UOther => Err TypeError
    | UStr s => Ok s
    end.

  (** [get_item] L56-84. *)
  Definition get_item (c : nv) (k : string) : res (A * string) :=
    match dget k c with
    | None => Err KeyError
    | Some it => Ok it
    end.

  (** [set_val] L153-178: check first, then assign. Returns the new mapping. *)
  Definition set_val (c : nv) (k : string) (v : A) (u : uarg) : nv * res unit :=
    match check_units u with
    | Err e => (c, Err e)
    | Ok s => (dset k (v, s) c, Ok tt)
    end.

  (** One entry met by the loops of [update] L231-251: either it unpacks to [key, (val, units)] or
      the unpacking raises (ValueError for a wrong length, TypeError for a non-iterable). *)
  Inductive entry : Type :=
  | Entry (k : string) (v : A) (u : uarg)
  | BadEntry (e : exn).

  (** The loop bodies L241-242, L246-248, L250-251: entry by entry, stopping at the first raise. *)
  Fixpoint update_loop (c : nv) (es : list entry) : nv * res unit :=
    match es with
    | [] => (c, Ok tt)
    | BadEntry e :: _ => (c, Err e)
    | Entry k v u :: es' =>
        match set_val c k v u with
        | (c', Ok _) => update_loop c' es'
        | (c', Err e) => (c', Err e)
        end
    end.

  (** [update] L200-251.  [other] is the entry sequence of the first argument in iteration order
      (a NamedValues, a dict or an iterable of pairs all reduce to it, L231-248), [kwargs] the
      keyword arguments.  The early return of L226-227 is the case of both empty. *)
  Definition update (c : nv) (other kwargs : list entry) : nv * res unit :=
    match update_loop c other with
    | (c', Ok _) => update_loop c' kwargs
    | (c', Err e) => (c', Err e)
    end.

  (** [delete] L253-266. *)
  Definition delete (c : nv) (k : string) : nv * res unit :=
    match dget k c with
    | None => (c, Err KeyError)
    | Some _ => (ddel k c, Ok tt)
    end.

  (** Mutating calls. *)
  Inductive op : Type :=
  | OSet (k : string) (v : A) (u : uarg)
  | OUpdate (other kwargs : list entry)
  | ODelete (k : string)
  | OClear.

  Definition step (c : nv) (o : op) : nv * res unit :=
    match o with
    | OSet k v u => set_val c k v u
    | OUpdate o1 kw => update c o1 kw
    | ODelete k => delete c k
    | OClear => ([], Ok tt)           (* clear L196-198 *)
    end.

  (** A program that catches every exception and goes on. *)
  Fixpoint run (c : nv) (h : list op) : nv :=
    match h with
    | [] => c
    | o :: h' => run (fst (step c o)) h'
    end.

  (** [__init__] L37-54 starts from an empty mapping and calls [update]. *)
  Definition init (other kwargs : list entry) : nv * res unit := update [] other kwargs.

  Definition contains (c : nv) (k : string) : bool := dmem k c.   (* __contains__ L277-279 *)
  Definition len (c : nv) : nat := length c.                       (* __len__ L287-289 *)
  Definition keys (c : nv) : list string := dkeys c.               (* keys L180-182 *)
  Definition items (c : nv) : list (string * (A * string)) := c.   (* items L184, __iter__ L281-285 *)
End NV.
Arguments nv A : clear implicits.
Arguments op A : clear implicits.
Arguments entry A : clear implicits.
