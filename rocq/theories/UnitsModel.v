(** Model of unit conversion on read: [wrapped_convert_units] (/repo/aviary/utils/utils.py L31-71)
    and [NamedValues.get_val] (/repo/aviary/utils/named_values.py L114-151).

    OpenMDAO's [convert_units] is outside /repo; what is assumed of it (openmdao.utils.units):
    - if either unit string is empty it returns the value unchanged;
    - an unknown unit string raises ValueError, different dimensions raise TypeError;
    - otherwise the result is [(val + offset) * factor] with [factor = f1 / f2] and
      [offset = o1 - o2 * f2 / f1], where a unit is a dimension, a positive factor and an offset;
    - adding a number to a str or a list raises TypeError; on a float array it acts element-wise.
    Numbers are exact rationals. *)
From Coq Require Import QArith Qcanon.
From Verif Require Import Base NVModel.
Open Scope nat_scope.

Record unit_def : Type := { udim : list Z; ufac : Qc; uoff : Qc }.

(** Leaves and entries of a stored value. *)
Inductive item : Type :=
| INone                      (* None *)
| INum (q : Qc)              (* int or float *)
| IRow (l : list Qc)         (* a float array used as an entry, e.g. a row of a 2-D array *)
| IBad.                      (* str, nested list, other object: arithmetic raises TypeError *)

(** Stored value: a scalar or an iterable.  Arrays are split by dtype because assignment into an
    integer array truncates toward zero. *)
Inductive kind : Type := KList | KTuple | KArrFloat | KArrInt.
Inductive uval : Type :=
| UScalar (i : item)
| UIter (k : kind) (l : list item).

Section Conv.
  (** The unit library: what [_find_unit] knows. *)
  Variable find_unit : string -> option unit_def.

  Definition dim_eqb (a b : list Z) : bool := if list_eq_dec Z.eq_dec a b then true else false.

  Definition conv_num (a b : unit_def) (x : Qc) : Qc :=
    ((x + (uoff a - uoff b * ufac b / ufac a)) * (ufac a / ufac b))%Qc.

  (** [convert_units(item, units, new_units)]. *)
  Definition convert_units (i : item) (u1 u2 : string) : res item :=
    if (String.eqb u1 "" || String.eqb u2 "")%bool then Ok i
    else match find_unit u1, find_unit u2 with
         | Some a, Some b =>
             if dim_eqb (udim a) (udim b) then
               match i with
               | INum x => Ok (INum (conv_num a b x))
               | IRow l => Ok (IRow (map (conv_num a b) l))
               | INone => Err TypeError
               | IBad => Err TypeError
               end
             else Err TypeError
         | _, _ => Err ValueError
         end.

  (** Truncation toward zero (numpy float -> int assignment). *)
  Definition trunc (q : Qc) : Z := Z.quot (Qnum (this q)) (Zpos (Qden (this q))).
  Definition ztoqc (z : Z) : Qc := Q2Qc (inject_Z z).

  (** [value[i] = ...] in an iterable of the given kind. *)
  Definition store (k : kind) (i : item) : item :=
    match k, i with
    | KArrInt, INum q => INum (ztoqc (trunc q))
    | KArrInt, IRow l => IRow (map (fun q => ztoqc (trunc q)) l)
    | _, _ => i
    end.

  (** The loop utils.py L61-64. *)
  Fixpoint conv_items (k : kind) (l : list item) (u1 u2 : string) : res (list item) :=
    match l with
    | [] => Ok []
    | i :: l' =>
        match (match i with INone => Ok INone | _ => rbind (convert_units i u1 u2) (fun j => Ok (store k j)) end) with
        | Err e => Err e
        | Ok j => rbind (conv_items k l' u1 u2) (fun js => Ok (j :: js))
        end
    end.

  (** [wrapped_convert_units] L31-71 (the deepcopy of L47 makes it pure). *)
  Definition wrapped (v : uval) (u1 u2 : string) : res uval :=
    match v with
    | UScalar INone => Ok (UScalar INone)                                  (* L50-51 *)
    | UScalar i => rbind (convert_units i u1 u2) (fun j => Ok (UScalar j)) (* L68-69 *)
    | UIter k l => rbind (conv_items k l u1 u2) (fun js => Ok (UIter k js))
    end.

  (** [NamedValues.get_val] L114-151. *)
  Definition get_val (c : nv uval) (key : string) (u : uarg) : res uval :=
    match check_units u with
    | Err e => Err e
    | Ok new =>
        match dget key c with
        | None => Err KeyError
        | Some (v, old) => if String.eqb old new then Ok v else wrapped v old new
        end
    end.
End Conv.
