(** Properties C05, C06, C07: metadata type and unit checking of AviaryValues. *)
From Coq Require Import QArith Qcanon.
From Verif Require Import Base NVModel UnitsModel UnitsProofs TypesModel TypesSpec TypesProofs.
Open Scope nat_scope.

(** C05. After any history of calls every entry that has metadata conforms to it. *)
Theorem C05_store_agrees_with_metadata :
  forall W find_unit md (h : list (op pv)), Agrees W find_unit md (av_run W find_unit md [] h).
Proof. exact av_run_init. Qed.
Print Assumptions C05_store_agrees_with_metadata.

(** C05. A rejected set_val stores nothing. *)
Theorem C05_rejected_call_stores_nothing :
  forall W find_unit md c k v u e,
    snd (av_set_val W find_unit md c k v u) = Err e -> fst (av_set_val W find_unit md c k v u) = c.
Proof. exact av_set_reject. Qed.
Print Assumptions C05_rejected_call_stores_nothing.

(** C05. A conforming value in fitting units is accepted and stored exactly as given. *)
Theorem C05_conforming_value_stored_verbatim :
  forall W find_unit md c k v s m ts,
    dget k md = Some m -> m_types m = Some ts ->
    (exists t, In t ts /\ InstOf W v t) -> Conforms W m v -> UnitsFit find_unit m s ->
    av_set_val W find_unit md c k v (UStr s) = (dset k (v, s) c, Ok tt).
Proof. exact av_set_exact. Qed.
Print Assumptions C05_conforming_value_stored_verbatim.

(** C05. A variable declared without any type requirement can never be set. *)
Theorem C05_untyped_variable_rejected :
  forall W find_unit md c k v u m, dget k md = Some m -> m_types m = None ->
    av_set_val W find_unit md c k v u = (c, Err TypeError).
Proof. exact none_types_never_set. Qed.
Print Assumptions C05_untyped_variable_rejected.

(** C06. The type check accepts exactly the conforming values: allowed container and every leaf declared
    (for non-empty arrays: the first leaf declared). *)
Theorem C06_check_type_iff :
  forall W m v, check_type W m v = Ok tt <-> Conforms W m v.
Proof. exact check_type_spec. Qed.
Print Assumptions C06_check_type_iff.

(** C06. "Every leaf is checked" fails for arrays. *)
Theorem C06_array_leaves_checked_refuted :
  exists ts v, check_type world (mk ts true) v = Ok tt /\ ~ AllLeaves world ts v.
Proof. exact array_second_leaf_unchecked. Qed.
Print Assumptions C06_array_leaves_checked_refuted.

(** C07. Values that already are instances of a declared type are returned as they are. *)
Theorem C07_conforming_values_unchanged :
  forall W m ts v, m_types m = Some ts -> (exists t, In t ts /\ InstOf W v t) -> cast_type W m v = Ok v.
Proof. exact cast_conforming. Qed.
Print Assumptions C07_conforming_values_unchanged.

(** C07. A cast scalar is an instance of a declared type or the original value. *)
Theorem C07_scalar_cast_result :
  forall W m ts v w, m_types m = Some ts -> is_iter v = false -> cast_type W m v = Ok w ->
    w = v \/ exists t, In t ts /\ InstOf W w t.
Proof. exact cast_scalar. Qed.
Print Assumptions C07_scalar_cast_result.

(** C07. Casting a scalar is idempotent. *)
Theorem C07_scalar_cast_idempotent :
  forall W m v w, is_iter v = false -> cast_type W m v = Ok w -> cast_type W m w = Ok w.
Proof. exact cast_idem_scalar. Qed.
Print Assumptions C07_scalar_cast_idempotent.

(** C07. Casting a scalar to a float option keeps the number it stands for. *)
Theorem C07_float_cast_keeps_number :
  forall W m v, m_types m = Some [TFloat] -> is_iter v = false -> (forall c n, v <> PEnum c n) ->
    cast_type W m v = Ok (match number W v with Some q => PFloat q | None => v end).
Proof. exact cast_float_exact. Qed.
Print Assumptions C07_float_cast_keeps_number.
(** C07. Casting a scalar to an int option. *)
Theorem C07_int_cast :
  forall W m v, m_types m = Some [TInt] ->
  match v with
  | PInt _ => cast_type W m v = Ok v
  | PBool _ => cast_type W m v = Ok v
  | PFloat q => cast_type W m v = Ok (PInt (trunc q))
  | PStr s => cast_type W m v = Ok (match parse_int W s with Some z => PInt z | None => v end)
  | PNone => cast_type W m v = Ok v
  | _ => True
  end.
Proof. exact cast_int_exact. Qed.
Print Assumptions C07_int_cast.

(** C07. A string given for an enum option: the member with that value if there is one, ... *)
Theorem C07_enum_by_value :
  forall W m c s n, m_types m = Some [TEnum c] -> NoDup (map snd (members W c)) -> In (n, PStr s) (members W c) ->
    cast_type W m (PStr s) = Ok (PEnum c n).
Proof. exact cast_enum_value. Qed.
Print Assumptions C07_enum_by_value.

(** ... otherwise the member with that name, upper-cased, ... *)
Theorem C07_enum_by_name :
  forall W m c s x, m_types m = Some [TEnum c] -> (forall n, ~ In (n, PStr s) (members W c)) ->
    In (upper s, x) (members W c) -> cast_type W m (PStr s) = Ok (PEnum c (upper s)).
Proof. exact cast_enum_name. Qed.
Print Assumptions C07_enum_by_name.

(** ... and AttributeError if neither exists. *)
Theorem C07_enum_unknown_raises :
  forall W m c s, m_types m = Some [TEnum c] -> (forall n, ~ In (n, PStr s) (members W c)) ->
    (forall x, ~ In (upper s, x) (members W c)) -> cast_type W m (PStr s) = Err AttributeError.
Proof. exact cast_enum_unknown. Qed.
Print Assumptions C07_enum_unknown_raises.

(** C07. Iterables for a single non-enum type are cast element by element or left alone. *)
Theorem C07_iterable_cast_elementwise :
  forall W m t k l w, m_types m = Some [t] -> (forall c, t <> TEnum c) -> cast_type W m (PIter k l) = Ok w ->
    w = PIter k l \/ exists ys, w = PIter k ys /\ Forall2 (fun x y => conv W t x = Ok y) l ys /\
                                Forall (fun y => InstOf W y t) ys.
Proof. exact cast_iter_elementwise. Qed.
Print Assumptions C07_iterable_cast_elementwise.

(** C07, refutations: a list of strings for an enum option collapses to its first member; a list of
    strings for a bool option is cast by truthiness; a float for an int option is truncated; casting an
    iterable twice may differ from casting it once. *)
Theorem C07_enum_list_elementwise_refuted :
  cast_type world (mk [TEnum "LegacyCode"] true) (PIter ListK [PStr "FLOPS"; PStr "GASP"])
  = Ok (PEnum "LegacyCode" "FLOPS").
Proof. exact enum_list_collapses. Qed.
Print Assumptions C07_enum_list_elementwise_refuted.
Theorem C07_bool_list_strict_refuted :
  cast_type world (mk [TBool] true) (PIter ListK [PStr "False"]) = Ok (PIter ListK [PBool true]).
Proof. exact bool_list_truthiness. Qed.
Print Assumptions C07_bool_list_strict_refuted.
Theorem C07_numeric_cast_lossless_refuted :
  exists w, cast_type world (mk [TInt] false) (PFloat (Q2Qc (27 # 10))) = Ok w /\ w = PInt 2.
Proof. exact int_truncates. Qed.
Print Assumptions C07_numeric_cast_lossless_refuted.
Theorem C07_iterable_cast_idempotent_refuted :
  exists m v w x, cast_type world m v = Ok w /\ cast_type world m w = Ok x /\ w <> x.
Proof. exact iter_not_idempotent. Qed.
Print Assumptions C07_iterable_cast_idempotent_refuted.

(** Witnesses: a nested list passes the check leaf by leaf, a bool inside a float list does not; a
    stored history with a rejected call. *)
Example C06_witness :
  check_type world (mk [TFloat] true) (PIter ListK [PFloat (ztoqc 1); PIter TupleK [PFloat (ztoqc 2)]]) = Ok tt /\
  check_type world (mk [TFloat; TInt] true) (PIter ListK [PFloat (ztoqc 1); PBool true]) = Err TypeError.
Proof. split; reflexivity. Qed.
Example C05_witness :
  let md := [("mass", {| m_types := Some [TFloat]; m_multi := false; m_units := "m" |})] in
  av_run world lib md []
    [OSet "mass" (PInt 3) (UStr "ft"); OSet "mass" (PFloat (ztoqc 1)) (UStr "degK"); OSet "mass" (PStr "q") (UStr "m")]
  = [("mass", (PFloat (ztoqc 3), "ft"))].
Proof. reflexivity. Qed.
Example C07_witness :
  m_types (mk [TEnum "LegacyCode"] false) = Some [TEnum "LegacyCode"] /\
  cast_type world (mk [TEnum "LegacyCode"] false) (PStr "gasp") = Ok (PEnum "LegacyCode" "GASP").
Proof. split; reflexivity. Qed.
