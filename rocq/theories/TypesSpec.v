(** Specification side of C05-C07: what it means for a value to have a declared type. *)
From Coq Require Import QArith Qcanon.
From Verif Require Import Base NVModel UnitsModel UnitsProofs TypesModel.
Open Scope nat_scope.

Section S.
  Variable W : py.

  (** Python's instance relation on the modelled types. *)
  Inductive InstOf : pv -> ptype -> Prop :=
  | I_bool b : InstOf (PBool b) TBool
  | I_bool_int b : InstOf (PBool b) TInt
  | I_int z : InstOf (PInt z) TInt
  | I_float q : InstOf (PFloat q) TFloat
  | I_str s : InstOf (PStr s) TStr
  | I_path s : InstOf (PPath s) TPath
  | I_enum c n : InstOf (PEnum c n) (TEnum c)
  | I_intenum c n : int_enum W c = true -> InstOf (PEnum c n) TInt
  | I_list l : InstOf (PIter ListK l) TList
  | I_tuple l : InstOf (PIter TupleK l) TTuple
  | I_arr l : InstOf (PIter ArrK l) TArr.

  (** [leaf x v]: x is a scalar found at some depth inside v. *)
  Inductive leaf : pv -> pv -> Prop :=
  | leaf_here x : is_iter x = false -> leaf x x
  | leaf_in x y k l : In y l -> leaf x y -> leaf x (PIter k l).

  (** [head_leaf x v]: x is reached from v by always taking the first element. *)
  Inductive head_leaf : pv -> pv -> Prop :=
  | hl_here x : is_iter x = false -> head_leaf x x
  | hl_in x y k l : head_leaf x y -> head_leaf x (PIter k (y :: l)).

  (** A leaf is acceptable: an instance of a declared type, booleans only where bool is declared. *)
  Definition Declared (ts : list ptype) (x : pv) : Prop :=
    (exists t, In t ts /\ InstOf x t) /\ ((exists b, x = PBool b) -> In TBool ts).

  Definition Container (m : meta) (ts : list ptype) (v : pv) : Prop :=
    m_multi m = true \/ exists t, In t ts /\ InstOf v t.

  Definition nonempty_array (v : pv) : bool :=
    match v with PIter ArrK (_ :: _) => true | _ => false end.

  (** What the type check is meant to guarantee for lists, tuples, scalars and empty arrays ... *)
  Definition AllLeaves (ts : list ptype) (v : pv) : Prop := forall x, leaf x v -> Declared ts x.
  (** ... and what it guarantees for non-empty arrays. *)
  Definition HeadLeaf (ts : list ptype) (v : pv) : Prop := exists x, head_leaf x v /\ Declared ts x.

  Definition Conforms (m : meta) (v : pv) : Prop :=
    forall ts, m_types m = Some ts ->
      (is_iter v = true -> Container m ts v) /\
      (nonempty_array v = false -> AllLeaves ts v) /\
      (nonempty_array v = true -> HeadLeaf ts v).

  (** Units acceptable for a variable: convertible to the declared units; the empty string disables the check. *)
  Definition UnitsFit (find_unit : string -> option unit_def) (m : meta) (u : string) : Prop :=
    u = "" \/ m_units m = "" \/ convertible find_unit (m_units m) u.

  (** Every entry that has metadata agrees with it. *)
  Definition Agrees find_unit (md : dict meta) (c : nv pv) : Prop :=
    forall k v u m, In (k, (v, u)) c -> dget k md = Some m ->
      Conforms m v /\ UnitsFit find_unit m u.
End S.

(** The number a scalar stands for (strings through the given float parser). *)
Definition number (W : py) (v : pv) : option Qc :=
  match v with
  | PBool b => Some (if b then 1%Qc else 0%Qc)
  | PInt z => Some (Q2Qc (inject_Z z))
  | PFloat q => Some q
  | PStr s => parse_float W s
  | _ => None
  end.
