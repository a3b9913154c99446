(** Factors for distributed propulsion, /repo/aviary/subsystems/mass/flops_based/distributed_prop.py.

    Generated by tools/py2coq.py from the source text; see the header of that file for the rules.  Decimal
    literals are exact and numbers are real numbers. *)
From Coq Require Import Reals.
From Verif Require Import Base Comp.
Open Scope list_scope.
Open Scope string_scope.
Local Open Scope R_scope.

(** ** Variable names, /repo/aviary/variable_info/variables.py *)


(** distributed_engine_count_factor, /repo/aviary/subsystems/mass/flops_based/distributed_prop.py L6-20 *)
Definition distributed_engine_count_factor (total_num_eng : R) : R :=
  let factor := total_num_eng in  (* L15 *)
  let factor :=  (* L17 *)
    if ltb 4 total_num_eng then
      let factor := 4 + 2 * atan ((total_num_eng - 4) / 3) in  (* L18 *)
      factor
    else
      factor in
  factor.

(** distributed_thrust_factor, /repo/aviary/subsystems/mass/flops_based/distributed_prop.py L23-35 *)
Definition distributed_thrust_factor (max_sls_thrust : R) (total_num_eng : R) : R :=
  let num_engine_factor := distributed_engine_count_factor total_num_eng in  (* L34 *)
  max_sls_thrust / num_engine_factor.
