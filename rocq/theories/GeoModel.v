(** Geopotential to geometric altitude of engine decks: /repo/aviary/subsystems/propulsion/utils.py L82-130.

    Written by hand.  The loop has no bound in the program, so it is modelled with a number of passes.  A negative base with
    a fractional exponent is not a real number in Python: a complex number for a float, nan for a numpy float.  The list
    argument is overwritten in place; the model returns the new list. *)
From Coq Require Import Reals.
From Verif Require Import Base Calc MathModel Comp.
Open Scope list_scope.
Local Open Scope R_scope.

(** /repo/aviary/constants.py L18-28 and utils.py L103-109 *)
Definition radius_earth : R := 6371009.
Definition grav_earth : R := 980665 / 100000.
Definition CM1 : R := 9985 / 10000.
Definition OC2 : R := 2676566 / 1000000000000000.
Definition GNS : R := 98236930 / 10000000.
Definition foot : R := 3048 / 10000.

(** L119-123 *)
Definition height (z : R) : R :=
  let r := radius_earth + z in
  let gn := GNS * pw (CM1 + 1) (radius_earth / r) in
  (r * gn * (pw CM1 (r / radius_earth) - 1) / CM1 - z * (r - z / 2) * OC2) / grav_earth.

(** L114 *)
Definition start (hft : R) : R := (hft + 437 / 100 * (1 / 100000000) * pw (20085 / 10000) hft) * foot.

(** L116-126 *)
Fixpoint passes (n : nat) (ho z : R) : option R :=
  match n with
  | O => None
  | S n' => let dh := ho - height z in if leb (Rabs dh) 1 then Some (z + dh) else passes n' ho (z + dh)
  end.

Inductive geo : Type := Feet (x : R) | NotReal | Running.
(** L111-129 for one altitude *)
Definition convert (n : nat) (hft : R) : geo :=
  if ltb hft 0 then NotReal
  else match passes n (hft * foot) (start hft) with
    | Some z => Feet (z / foot)
    | None => Running
    end.
