(** Engine performance scaling, engine sizing, throttle allocation and the sums over engine types:
    /repo/aviary/subsystems/propulsion/engine_scaling.py, engine_sizing.py, throttle_allocation.py,
    propulsion_mission.py L549-671, propulsion_premission.py L190-217.

    Written by hand.  [nn] is num_nodes, [ne] the number of engine types.  Arrays of shape (nn, ne) are stored row by row. *)
From Coq Require Import Reals.
From Verif Require Import Base Comp Vec Arr.
Open Scope list_scope.
Open Scope string_scope.
Local Open Scope R_scope.

(** ** Names *)
(** EngineModelVariables, /repo/aviary/subsystems/propulsion/utils.py L24-43, by value. *)
Definition v_MACH := "mach".
Definition v_THRUST := "thrust_net".
Definition v_SHAFT_POWER := "shaft_power".
Definition v_RPM := "rotations_per_minute".
Definition v_TORQUE := "torque".
Definition v_FUEL_FLOW := "fuel_flow_rate".
Definition v_FUEL_NEGATIVE := "fuel_flow_rate_negative".
Definition v_THROTTLE := "throttle".
Definition v_SCALE_FACTOR := "aircraft:engine:scale_factor".
Definition engine_model_variables : list string :=
  [v_MACH; "altitude"; v_THROTTLE; "hybrid_throttle"; v_THRUST; "tailpipe_thrust"; "gross_thrust"; v_SHAFT_POWER;
   "shaft_power_corrected"; "ram_drag"; v_RPM; v_FUEL_FLOW; "electric_power_in"; "nox_rate"; "t4"; v_TORQUE].
(** engine_scaling.py L25 *)
Definition skip_variables : list string := [v_MACH; "altitude"; v_THROTTLE; "hybrid_throttle"; "t4"].
(** utils.py L67-70 *)
Definition max_variables : list (string * string) := [(v_THRUST, "thrust_net_max"); (v_SHAFT_POWER, "shaft_power_max")].

(** ** EngineScaling, engine_scaling.py L28-260 *)
Record scaling_options := {
  constant_fuel_flow : R; constant_fuel_term : R; linear_fuel_term : R; subsonic_fuel_factor : R; supersonic_fuel_factor : R }.

Definition unscaled (x : string) : string := String.append x "_unscaled".
(** The loop over engine_variables: pairs of output and input that are scaled by the scale factor, L62-97 and L137-152. *)
Definition scaled_pairs (vars : list string) : list (string * string) :=
  flat_map (fun x =>
    if existsb (String.eqb x) skip_variables then []
    else if String.eqb x v_FUEL_FLOW then []
    else (x, unscaled x) ::
      match dget x max_variables with
      | Some _ => [(String.append x "_max", unscaled (String.append x "_max"))]
      | None => []
      end) vars.

(** L110-135 *)
Definition mach_scaling (p : scaling_options) (mach : R) : R :=
  if leb 1 mach then supersonic_fuel_factor p else subsonic_fuel_factor p.
Definition equation_scaling (p : scaling_options) (sf : R) : R :=
  1 + constant_fuel_term p + linear_fuel_term p * (1 - sf).

Definition EngineScaling_run (p : scaling_options) (vars : list string) (e : venv) (o : string) (k : nat) : R :=
  let sf := e v_SCALE_FACTOR 0%nat in
  if existsb (String.eqb v_FUEL_FLOW) vars && String.eqb o v_FUEL_NEGATIVE then
    - (e (unscaled v_FUEL_FLOW) k * (sf * mach_scaling p (e v_MACH k) * equation_scaling p sf) + constant_fuel_flow p)
  else match dget o (scaled_pairs vars) with
    | Some i => e i k * sf
    | None => 0
    end.

(** L154-260: rows r = arange(nn), columns c = tile(0, nn) or r. *)
Definition EngineScaling_jac (nn : nat) (p : scaling_options) (vars : list string) (e : venv) (o : string) (k : nat) (i : string) (l : nat) : R :=
  let sf := e v_SCALE_FACTOR 0%nat in
  let r := fun q : nat => q in
  let c := np_tile (fun _ => 0%nat) 1 in
  if existsb (String.eqb v_FUEL_FLOW) vars && String.eqb o v_FUEL_NEGATIVE then
    if String.eqb i (unscaled v_FUEL_FLOW) then
      sparse nn r r (fun q => - sf * mach_scaling p (e v_MACH q) * equation_scaling p sf) k l
    else if String.eqb i v_SCALE_FACTOR then
      sparse nn r c (fun q => - mach_scaling p (e v_MACH q) * e (unscaled v_FUEL_FLOW) q
        * (1 + linear_fuel_term p + constant_fuel_term p - 2 * linear_fuel_term p * sf)) k l
    else 0
  else match dget o (scaled_pairs vars) with
    | Some j =>
      if String.eqb i j then sparse nn r r (fun _ => sf) k l
      else if String.eqb i v_SCALE_FACTOR then sparse nn r c (fun q => e j q) k l
      else 0
    | None => 0
    end.

Definition EngineScaling (nn : nat) (p : scaling_options) (vars : list string) : vcomp := {|
  v_ins := [(v_SCALE_FACTOR, 1%nat); (v_MACH, nn)]
    ++ (if existsb (String.eqb v_FUEL_FLOW) vars then [(unscaled v_FUEL_FLOW, nn)] else [])
    ++ map (fun x => (snd x, nn)) (scaled_pairs vars);
  v_outs := (if existsb (String.eqb v_FUEL_FLOW) vars then [(v_FUEL_NEGATIVE, nn)] else [])
    ++ map (fun x => (fst x, nn)) (scaled_pairs vars);
  v_run := EngineScaling_run p vars;
  v_jac := EngineScaling_jac nn p vars |}.

(** ** SizeEngine, engine_sizing.py L7-54 *)
Definition v_REFERENCE_SLS_THRUST := "aircraft:engine:reference_sls_thrust".
Definition v_SCALED_SLS_THRUST := "aircraft:engine:scaled_sls_thrust".
Definition SizeEngine : vcomp := {|
  v_ins := [(v_REFERENCE_SLS_THRUST, 1%nat); (v_SCALE_FACTOR, 1%nat)];
  v_outs := [(v_SCALED_SLS_THRUST, 1%nat)];
  v_run := fun e o k => e v_SCALE_FACTOR 0%nat * e v_REFERENCE_SLS_THRUST 0%nat;
  v_jac := fun e o k i l =>
    if String.eqb i v_SCALE_FACTOR then e v_REFERENCE_SLS_THRUST 0%nat
    else if String.eqb i v_REFERENCE_SLS_THRUST then e v_SCALE_FACTOR 0%nat else 0 |}.

(** ** ThrottleAllocator, throttle_allocation.py L9-176 *)
Definition v_aggregate := "aggregate_throttle".
Definition v_allocations := "throttle_allocations".
Definition v_allocation_sum := "throttle_allocation_sum".
(** The allocation of engine type j < ne - 1 at a node: the input has shape (nn, ne - 1) in the DYNAMIC mode, (ne - 1) else. *)
Definition allocation_at (dynamic : bool) (ne k j : nat) : nat := if dynamic then (k * (ne - 1) + j)%nat else j.
Definition sum_alloc (dynamic : bool) (ne : nat) (e : venv) (k : nat) : R :=
  vsum (ne - 1) (fun j => e v_allocations (allocation_at dynamic ne k j)).

(** L109-131 *)
Definition ThrottleAllocator_run (dynamic : bool) (ne : nat) (e : venv) (o : string) (p : nat) : R :=
  if String.eqb o v_THROTTLE then
    let k := (p / ne)%nat in
    let j := (p mod ne)%nat in
    if Nat.ltb j (ne - 1) then e v_aggregate k * e v_allocations (allocation_at dynamic ne k j)
    else e v_aggregate k * (1 - sum_alloc dynamic ne e k)
  else sum_alloc dynamic ne e p.

(** L146-149: np.vstack((np.eye(ne - 1), -np.ones(ne - 1))).ravel() *)
Definition mask (ne q : nat) : R :=
  let r := (q / (ne - 1))%nat in
  let c := (q mod (ne - 1))%nat in
  if Nat.ltb r (ne - 1) then if Nat.eqb r c then 1 else 0 else - (1).

(** L66-107 and L133-170.  np.outer(agg, mask) has a row of ne * (ne - 1) values for every node. *)
Definition ThrottleAllocator_jac (dynamic : bool) (nn ne : nat) (e : venv) (o : string) (p : nat) (i : string) (l : nat) : R :=
  let b := (ne - 1)%nat in
  let allocs := fun q => let k := (q / ne)%nat in let j := (q mod ne)%nat in
    if Nat.ltb j b then e v_allocations (allocation_at dynamic ne k j) else 1 - sum_alloc dynamic ne e k in
  let deriv := fun q => e v_aggregate (q / (ne * b))%nat * mask ne (q mod (ne * b)) in
  if String.eqb o v_THROTTLE then
    if String.eqb i v_aggregate then sparse (nn * ne) (fun q => q) (np_repeat (fun k => k) ne) allocs p l
    else if String.eqb i v_allocations then
      if dynamic then
        let rows := np_repeat (fun r => r) b in
        let cols := np_tile (fun c => c) b in
        let all_rows := fun q => (np_tile rows (ne * b) q + ne * np_repeat (fun k => k) (ne * b) q)%nat in
        let all_cols := fun q => (np_tile cols (ne * b) q + b * np_repeat (fun k => k) (ne * b) q)%nat in
        sparse (nn * (ne * b)) all_rows all_cols deriv p l
      else deriv (p * b + l)%nat
    else 0
  else if String.eqb o v_allocation_sum then
    if String.eqb i v_allocations then
      if dynamic then sparse (nn * b) (np_repeat (fun k => k) b) (fun q => q) (fun _ => 1) p l else 1
    else 0
  else 0.

Definition ThrottleAllocator (dynamic : bool) (nn ne : nat) : vcomp := {|
  v_ins := [(v_aggregate, nn); (v_allocations, if dynamic then (nn * (ne - 1))%nat else (ne - 1)%nat)];
  v_outs := [(v_THROTTLE, (nn * ne)%nat); (v_allocation_sum, if dynamic then nn else 1%nat)];
  v_run := ThrottleAllocator_run dynamic ne;
  v_jac := ThrottleAllocator_jac dynamic nn ne |}.

(** ** PropulsionSum of the mission, propulsion_mission.py L549-671 *)
Definition sum_pairs : list (string * string) :=
  [("thrust_net_total", v_THRUST); ("thrust_net_max_total", "thrust_net_max");
   ("fuel_flow_rate_negative_total", v_FUEL_NEGATIVE); ("electric_power_in_total", "electric_power_in"); ("nox_rate_total", "nox_rate")].
Definition PropulsionSum (nn ne : nat) (num_engines : nat -> R) : vcomp := {|
  v_ins := map (fun x => (snd x, (nn * ne)%nat)) sum_pairs;
  v_outs := map (fun x => (fst x, nn)) sum_pairs;
  v_run := fun e o k => match dget o sum_pairs with
    | Some i => vsum ne (fun j => e i (k * ne + j)%nat * num_engines j)
    | None => 0
    end;
  v_jac := fun e o k i l => match dget o sum_pairs with
    | Some j => if String.eqb i j
      then sparse (nn * ne) (np_repeat (fun r => r) ne) (fun q => q) (np_tile num_engines ne) k l else 0
    | None => 0
    end |}.

(** ** PropulsionSum of the premission, propulsion_premission.py L190-217 *)
Definition v_TOTAL_SCALED_SLS_THRUST := "aircraft:propulsion:total_scaled_sls_thrust".
Definition PropulsionSumPre (ne : nat) (num_engines : nat -> R) : vcomp := {|
  v_ins := [(v_SCALED_SLS_THRUST, ne)];
  v_outs := [(v_TOTAL_SCALED_SLS_THRUST, 1%nat)];
  v_run := fun e o k => vsum ne (fun j => e v_SCALED_SLS_THRUST j * num_engines j);
  v_jac := fun e o k i l => if String.eqb i v_SCALED_SLS_THRUST then num_engines l else 0 |}.
