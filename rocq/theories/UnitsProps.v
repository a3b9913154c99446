(** Property C04: unit conversion on read. *)
From Coq Require Import QArith Qcanon.
From Verif Require Import Base NVModel UnitsModel UnitsProofs.
Open Scope nat_scope.

(** Reading in the stored units returns the stored object, whatever it is. *)
Theorem C04_same_units_identity :
  forall find c k v u, get_val find (stored c k v u) k (UStr u) = Ok v.
Proof. exact api_same. Qed.
Print Assumptions C04_same_units_identity.

(** Every number read denotes the same physical quantity as the number stored. *)
Theorem C04_conversion_preserves_quantity :
  forall find, sane find -> forall c k v u1 u2 a b,
    u1 <> "" -> u2 <> "" -> find u1 = Some a -> find u2 = Some b -> udim a = udim b ->
    numeric v = true -> int_array v = false ->
    exists w, get_val find (stored c k v u1) k (UStr u2) = Ok w /\ uval_same a b v w.
Proof. exact api_quantity. Qed.
Print Assumptions C04_conversion_preserves_quantity.

(** Read in other units, write back, read in the first units: the original value. *)
Theorem C04_round_trip :
  forall find, sane find -> forall c k v u1 u2,
    u1 <> "" -> u2 <> "" -> convertible find u1 u2 -> numeric v = true -> int_array v = false ->
    exists w, get_val find (stored c k v u1) k (UStr u2) = Ok w /\
              get_val find (stored (stored c k v u1) k w u2) k (UStr u1) = Ok v.
Proof. exact api_roundtrip. Qed.
Print Assumptions C04_round_trip.

(** Going through an intermediate unit makes no difference. *)
Theorem C04_path_independent :
  forall find, sane find -> forall c k v u1 u2 u3,
    u1 <> "" -> u2 <> "" -> u3 <> "" -> convertible find u1 u2 -> convertible find u2 u3 ->
    numeric v = true -> int_array v = false ->
    exists w x, get_val find (stored c k v u1) k (UStr u2) = Ok w /\
                get_val find (stored c k w u2) k (UStr u3) = Ok x /\
                get_val find (stored c k v u1) k (UStr u3) = Ok x.
Proof. exact api_path. Qed.
Print Assumptions C04_path_independent.

(** Container kind, length and None entries are preserved (all values, integer arrays included). *)
Theorem C04_shape_preserved :
  forall find c k v u1 u2 w, get_val find (stored c k v u1) k (UStr u2) = Ok w -> same_shape v w.
Proof. exact api_shape. Qed.
Print Assumptions C04_shape_preserved.

(** A read raises exactly when there is something to convert and it cannot be converted. *)
Theorem C04_error_iff :
  forall find c k v u1 u2, u1 <> "" -> u2 <> "" -> u1 <> u2 ->
    (is_ok (get_val find (stored c k v u1) k (UStr u2)) = false <->
     has_leaf v = true /\ (~ convertible find u1 u2 \/ numeric v = false)).
Proof. exact api_err. Qed.
Print Assumptions C04_error_iff.

(** The restriction to non-integer arrays is needed: an integer array read in other units is truncated. *)
Theorem C04_int_array_round_trip_refuted :
  exists v w, numeric v = true /\
    get_val lib (stored [] "x" v "m") "x" (UStr "ft") = Ok w /\
    get_val lib (stored [] "x" w "ft") "x" (UStr "m") <> Ok v.
Proof. exact int_array_loses. Qed.
Print Assumptions C04_int_array_round_trip_refuted.

(** "An incompatible request raises" fails for empty (or all-None) iterables. *)
Theorem C04_incompatible_always_raises_refuted :
  exists v w, ~ convertible lib "m" "degK" /\ get_val lib (stored [] "x" v "m") "x" (UStr "degK") = Ok w.
Proof. exact empty_wrong_units. Qed.
Print Assumptions C04_incompatible_always_raises_refuted.

(** The hypotheses are met by a library with offset units and a tuple with a None entry. *)
Example C04_witness :
  sane lib /\ convertible lib "degC" "degK" /\
  numeric (UIter KTuple [INum (ztoqc 15); INone]) = true /\
  int_array (UIter KTuple [INum (ztoqc 15); INone]) = false /\
  match get_val lib (stored [] "T" (UIter KTuple [INum (ztoqc 15); INone]) "degC") "T" (UStr "degK") with
  | Ok (UIter KTuple [INum q; INone]) => Qeq_bool (this q) (28815 # 100) = true
  | _ => False
  end.
Proof.
  split; [exact lib_sane|]. split.
  - eexists; eexists; repeat split.
  - repeat split.
Qed.
