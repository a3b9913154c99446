(** Model of metadata merging and variable-hierarchy merging.

    /repo/aviary/utils/merge_variable_metadata.py L4-112
    /repo/aviary/utils/merge_hierarchies.py L6-208
    /repo/aviary/utils/compare_hierarchies.py L5-188

    Simplifications.
    - Metadata values are floats (rationals, no nan or infinity), one-dimensional float arrays,
      dictionaries with distinct string keys, or anything else ([MOther], compared with Python [==]).
      The result of [==] in the remaining cases is a parameter [py_eq]; a comparison whose truth value
      is ambiguous raises ValueError, which the model represents by [false] because both end in ValueError.
    - Python sets are unordered; the model keeps the order of the first dictionary.  Only lookups in
      the result are specified.
    - Hierarchy classes are plain nested classes (no inheritance) whose attributes are strings or
      nested classes, with distinct attribute names.  The subclass checks of merge_hierarchies
      L186-196 and the comparison with the core hierarchies (compare_hierarchies L176-183) do
      nothing for such classes. *)
From Coq Require Import QArith Qabs.
From Verif Require Import Base.
Open Scope nat_scope.

(** ** Metadata: merge_variable_metadata.py *)
Inductive mval : Type :=
| MFloat (q : Q)
| MArr (l : list Q)
| MDict (d : list (string * mval))
| MOther (n : nat).

Section Meta.
  Variable py_eq : mval -> mval -> bool.      (* a == b in the cases not treated specially, L22 *)

  Definition rel_tol : Q := (1 # 100000000)%Q.                              (* L4 *)

  (** np.isclose(a, b, rtol, atol=0): |a - b| <= rtol * |b| *)
  Definition isclose (a b : Q) : bool := Qle_bool (Qabs (a - b)) (rel_tol * Qabs b).   (* L9 *)

  (** np.allclose on 1-D arrays with broadcasting of length-one arrays; other length mismatches raise
      ValueError (L12). *)
  Definition allclose (a b : list Q) : bool :=
    if length a =? length b then forallb (fun p => isclose (fst p) (snd p)) (combine a b)
    else match a, b with
         | [x], _ => forallb (fun y => isclose x y) b
         | _, [y] => forallb (fun x => isclose x y) a
         | _, _ => false
         end.

  Definition same_keys {A B} (a : list (string * A)) (b : list (string * B)) : bool :=   (* L15 *)
    forallb (fun k => existsb (String.eqb k) (map fst b)) (map fst a) &&
    forallb (fun k => existsb (String.eqb k) (map fst a)) (map fst b).

  Fixpoint almost_equal (a b : mval) : bool :=                              (* L4-22 *)
    match a, b with
    | MFloat x, MFloat y => isclose x y
    | MArr x, MArr y => allclose x y
    | MDict da, MDict db =>
      same_keys da db &&
      (fix go (l : list (string * mval)) : bool :=                          (* L17-20 *)
         match l with
         | [] => true
         | (k, v) :: l' => match dget k db with
                           | Some w => almost_equal v w && go l'
                           | None => false
                           end
         end) da
    | _, _ => py_eq a b
    end%bool.

  (** merge_2_meta_data_dicts L25-80 *)
  Definition merge2 (d1 d2 : dict mval) : res (dict mval) :=
    if forallb (fun p => match dget (fst p) d2 with                         (* L65-72 *)
                         | Some w => almost_equal (snd p) w
                         | None => true
                         end) d1
    then Ok (d1 ++ filter (fun p => negb (dmem (fst p) d1)) d2)             (* L57-60, L75, L78 *)
    else Err ValueError.

  (** merge_meta_data L83-112 *)
  Definition merge_meta_data (ds : list (dict mval)) : res (dict mval) :=
    match ds with
    | [] => Err IndexError                                                  (* L106 *)
    | d0 :: _ => fold_left (fun acc d => rbind acc (fun m => merge2 m d)) ds (Ok d0)   (* L109-110 *)
    end.
End Meta.

(** ** Hierarchies *)
Inductive node : Type :=
| Var (s : string)
| Cls (attrs : list (string * node)).

Definition hierarchy := list (string * node).

(** compare_inner_classes + recursive_comparison, compare_hierarchies.py L5-146: no variable with
    two names, at any depth reached through inner classes that both have. *)
Fixpoint compare_node (a b : node) : bool :=
  match a, b with
  | Var s, Var t => String.eqb s t
  | Cls la, Cls lb =>
    (fix go (l : list (string * node)) : bool :=
       match l with
       | [] => true
       | (k, v) :: l' => match dget k lb with
                         | Some w => compare_node v w && go l'
                         | None => go l'
                         end
       end) la
  | _, _ => true              (* a variable and a class of the same name: not compared *)
  end%bool.
Definition compare (a b : hierarchy) : bool := compare_node (Cls a) (Cls b).

(** merge_attributes + recursive_merge, merge_hierarchies.py L6-156: attributes of [b] that are not a
    variable (resp. class) of the base are set on the base; classes that both have are merged. *)
Fixpoint merge_into (b : node) (base : hierarchy) : hierarchy :=
  match b with
  | Var _ => base
  | Cls lb =>
    (fix go (l : list (string * node)) (acc : hierarchy) : hierarchy :=
       match l with
       | [] => acc
       | (k, v) :: l' =>
         go l' (match v with
                | Var s => match dget k acc with
                           | Some (Var _) => acc                            (* already a variable *)
                           | _ => dset k (Var s) acc                        (* L48-49 with variables *)
                           end
                | Cls lv => match dget k acc with
                            | Some (Cls ab) => dset k (Cls (merge_into v ab)) acc   (* L86-112 *)
                            | _ => dset k (Cls lv) acc                      (* L48-49 with classes *)
                            end
                end)
       end) lb base
  end.

(** merge_two_hierarchies L115-156: compare (raises), then merge.  The comparison inside
    recursive_merge (L95-97) is included in [compare]. *)
Definition merge_two (base b : hierarchy) : res hierarchy :=
  if compare base b then Ok (merge_into (Cls b) base) else Err ValueError.

(** All ordered pairs of different list positions are compared: compare_hierarchies.py L174-188. *)
Fixpoint compare_pairs (hs : list hierarchy) : bool :=
  match hs with
  | [] => true
  | h :: hs' => forallb (fun g => compare h g && compare g h) hs' && compare_pairs hs'
  end%bool.

(** merge_hierarchies L159-208 *)
Definition merge_hierarchies (hs : list hierarchy) : res hierarchy :=
  if compare_pairs hs then                                                  (* L183 *)
    match hs with
    | [] => Err IndexError                                                  (* L203 *)
    | h0 :: _ => fold_left (fun acc h => rbind acc (fun m => merge_two m h)) hs (Ok h0)   (* L205-206 *)
    end
  else Err ValueError.

(** ** Object identity: classes live in a store, and copy.deepcopy of a class is the class itself, so
    merge_hierarchies works on the caller's class objects (L191, L203).
    A store is a list of class objects; a class attribute is a string or a reference. *)
Inductive hval : Type := HVar (s : string) | HRef (l : nat).
Definition store := list (list (string * hval)).
Definition obj (st : store) (l : nat) : list (string * hval) := nth l st [].
Definition upd (st : store) (l : nat) (o : list (string * hval)) : store :=
  firstn l st ++ [o] ++ skipn (S l) st.

Fixpoint merge_heap (fuel : nat) (st : store) (base b : nat) : store :=
  match fuel with
  | O => st
  | S f =>
    (* L147-153: set what the base lacks, by reference *)
    let base_attrs := obj st base in
    let st1 := fold_left (fun s kv =>
                 match snd kv with
                 | HVar _ => match dget (fst kv) base_attrs with
                             | Some (HVar _) => s | _ => upd s base (dset (fst kv) (snd kv) (obj s base)) end
                 | HRef _ => match dget (fst kv) base_attrs with
                             | Some (HRef _) => s | _ => upd s base (dset (fst kv) (snd kv) (obj s base)) end
                 end) (obj st b) st in
    (* L154, L86-112: recurse into the classes both had *)
    fold_left (fun s kv =>
                 match snd kv, dget (fst kv) base_attrs with
                 | HRef lb, Some (HRef la) => merge_heap f s la lb
                 | _, _ => s
                 end) (obj st b) st1
  end.

(** The classes to merge are given by their locations; the first one is the base (L203: deepcopy
    returns the same class). *)
Definition merge_hierarchies_heap (fuel : nat) (st : store) (ls : list nat) : store * nat :=
  match ls with
  | [] => (st, 0)
  | l0 :: _ => (fold_left (fun s l => merge_heap fuel s l0 l) ls st, l0)
  end.
