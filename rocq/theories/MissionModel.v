(** Model of the main/reserve phase split, the connections the energy subsystem requests, and the
    post-mission fuel accounting.

    /repo/aviary/mission/utils.py L5-59 (separate_reserve_phases)
    /repo/aviary/subsystems/energy/energy_builder.py L66-97 (get_post_mission_bus_variables)
    /repo/aviary/core/aviary_group.py L1266-1286 (_connect_mission_bus_variables)
    /repo/aviary/subsystems/energy/fuel_summation.py L29-187 (FuelSummationGroup.setup)

    Simplifications.  A phase dictionary is reduced to what these functions look at: whether it has
    'user_options' and, if so, the object stored under 'reserve'.  Python objects that may be stored
    there are [PTrue], [PFalse] (the two bool singletons) and [POther n] (anything else: 0, None,
    numpy.bool_, ...); the code tests [is False], so only [PFalse] is treated as False.
    Masses are real numbers in lbm; an OpenMDAO ExecComp evaluates its expression string exactly.
    An ExecComp input that is neither promoted nor connected keeps its component default, here the
    parameter [dflt] (OpenMDAO uses 1.0). *)
From Coq Require Import Reals.
From Verif Require Import Base.
Open Scope list_scope.

(** ** Splitting phases: mission/utils.py L5-59 *)
Inductive pyobj : Type := PTrue | PFalse | POther (n : nat).

Record phase_info : Type := { user_options : option (option pyobj) }.
(** [None]: no 'user_options'; [Some None]: options without 'reserve'; [Some (Some o)]: reserve = o. *)

Record split_state : Type :=
  { start_reserve : bool; raise_error : bool; mains : list string; reserves : list string }.

Definition split_main (st : split_state) (nm : string) : split_state :=     (* L36-38, L45-47 *)
  {| start_reserve := start_reserve st;
     raise_error := if start_reserve st then true else raise_error st;
     mains := mains st ++ [nm]; reserves := reserves st |}.

Definition split_reserve (st : split_state) (nm : string) : split_state :=  (* L41-42 *)
  {| start_reserve := true; raise_error := raise_error st;
     mains := mains st; reserves := reserves st ++ [nm] |}.

Definition split_step (st : split_state) (p : string * phase_info) : split_state :=  (* L31-47 *)
  match user_options (snd p) with
  | None => st
  | Some None => split_main st (fst p)
  | Some (Some PFalse) => split_main st (fst p)
  | Some (Some _) => split_reserve st (fst p)
  end.

Definition split_init : split_state :=                                      (* L27-30 *)
  {| start_reserve := false; raise_error := false; mains := []; reserves := [] |}.

Definition separate_reserve_phases (mission : dict phase_info) : res (list string * list string) :=
  let st := fold_left split_step mission split_init in
  if raise_error st then Err ValueError                                     (* L49-57 *)
  else Ok (mains st, reserves st).                                          (* L59 *)

(** ** Requested connections: energy_builder.py L66-97 *)
Inductive target : Type :=
| TBurnedFinal          (* <energy>.fuel_burned.mass_final *)
| TMarginFinal          (* <energy>.reserve_fuel_frac.final_mass *)
| TReserveInitial       (* <energy>.reserve_fuel_burned.mass_initial *)
| TReserveFinal.        (* <energy>.reserve_fuel_burned.mass_final *)

Record bus_entry : Type := { post_names : list target; src_index : Z }.

(** The bus dictionary is keyed by phase; each phase has at most one entry, for 'mass'. *)
Definition bus := dict bus_entry.

Definition post_mission_bus (margin_on : bool) (mission : dict phase_info) : res bus :=
  rbind (separate_reserve_phases mission) (fun mr =>                        (* L68 *)
  let (main, rsv) := mr in
  let names := TBurnedFinal :: (if margin_on then [TMarginFinal] else []) in  (* L70-74 *)
  match main with
  | [] => Err IndexError                                                    (* main_phases[-1], L76 *)
  | m0 :: _ =>
    let b0 := dset (last main m0) {| post_names := names; src_index := (-1)%Z |} [] in (* L76-81 *)
    match rsv with
    | [] => Ok b0                                                           (* L83 *)
    | r0 :: _ =>
      let b1 := dset r0 {| post_names := [TReserveInitial]; src_index := 0%Z |} b0 in       (* L84-89 *)
      Ok (dset (last rsv r0) {| post_names := [TReserveFinal]; src_index := (-1)%Z |} b1)   (* L90-95 *)
    end
  end).

(** ** Connections made: aviary_group.py L1266-1286 *)
Definition connections (b : bus) : list (string * Z * target) :=
  flat_map (fun e => map (fun t => (fst e, src_index (snd e), t)) (post_names (snd e))) b.

(** The element of a timeseries chosen by src_indices (numpy indexing, negative from the end). *)
Definition pick (ts : list R) (i : Z) : option R :=
  let n := Z.of_nat (length ts) in
  let j := if (i <? 0)%Z then (n + i)%Z else i in
  if (j <? 0)%Z then None else nth_error ts (Z.to_nat j).

Definition target_eqb (a b : target) : bool :=
  match a, b with
  | TBurnedFinal, TBurnedFinal | TMarginFinal, TMarginFinal
  | TReserveInitial, TReserveInitial | TReserveFinal, TReserveFinal => true
  | _, _ => false
  end.

(** Value seen by a component input: the connected source or the component default. *)
Definition input_value (dflt : R) (series : string -> list R) (cs : list (string * Z * target)) (t : target) : R :=
  match find (fun c => target_eqb (snd c) t) cs with
  | Some (p, i, _) => match pick (series p) i with Some v => v | None => dflt end
  | None => dflt
  end.

(** ** Fuel accounting: fuel_summation.py L29-187 *)
Record fuel_in : Type := {
  gross_mass : R;             (* Mission.GROSS_MASS *)
  margin : R;                 (* Mission.RESERVE_FUEL_MARGIN, percent *)
  additional : R;             (* Mission.RESERVE_FUEL_MASS_ADDITIONAL *)
  total_fuel : R;             (* Mission.TOTAL_FUEL_MASS *)
  max_capacity : R;           (* Aircraft.Fuel.MAX_CAPACITY_MASS *)
  unusable : R;               (* Aircraft.Fuel.UNUSABLE_FUEL_MASS *)
  taxi_in : R                 (* Mission.Taxi.FUEL_MASS_TAXI_IN *)
}.

Record fuel_out : Type := {
  fuel_mass : R;              (* Mission.FUEL_MASS *)
  reserve_fuel : R;           (* Mission.RESERVE_FUEL_MASS *)
  margin_mass : R;            (* reserve_fuel_margin_mass *)
  total_reserve : R;          (* Mission.TOTAL_RESERVE_FUEL_MASS *)
  mass_residual : R;          (* Mission.Constraints.MASS_RESIDUAL *)
  excess_capacity : R;        (* Mission.Constraints.EXCESS_FUEL_MASS_CAPACITY *)
  block_fuel : R              (* Mission.BLOCK_FUEL_MASS *)
}.

Section Fuel.
  Open Scope R_scope.
  Variable inp : target -> R.   (* values of the four inputs fed from the mission *)

  Definition fuel_group (has_reserve margin_on : bool) (x : fuel_in) : fuel_out :=
    let burned := gross_mass x - inp TBurnedFinal in                                        (* L47-59 *)
    let rburned := if has_reserve then inp TReserveInitial - inp TReserveFinal else 0 in    (* L62-74, L106 *)
    let mmass := if margin_on then margin x / 100 * (gross_mass x - inp TMarginFinal) else 0 in (* L76-98, L104 *)
    let total := mmass + additional x + rburned in                                          (* L100-118 *)
    {| fuel_mass := burned; reserve_fuel := rburned; margin_mass := mmass; total_reserve := total;
       mass_residual := total_fuel x - burned - total;                                      (* L122-137 *)
       excess_capacity := max_capacity x - unusable x - total_fuel x;                       (* L139-158 *)
       block_fuel := burned + taxi_in x |}.                                                 (* L174-187 *)
End Fuel.

(** The whole chain from the mission description and the mass timeseries to the fuel outputs.
    [margin_on] is the test [RESERVE_FUEL_MARGIN != 0] (energy_builder L73, fuel_summation L77). *)
Definition margin_on (x : fuel_in) : bool := if Req_EM_T (margin x) 0 then false else true.

Definition run_fuel (dflt : R) (mission : dict phase_info) (series : string -> list R) (x : fuel_in)
  : res fuel_out :=
  rbind (separate_reserve_phases mission) (fun mr =>                        (* fuel_summation L34 *)
  match fst mr with
  | [] => Err ValueError                                                    (* L37-44 *)
  | _ =>
    rbind (post_mission_bus (margin_on x) mission) (fun b =>
    Ok (fuel_group (input_value dflt series (connections b))
                   (match snd mr with [] => false | _ => true end) (margin_on x) x))
  end).

(** Is the capacity constraint (lower = 0) part of the problem?  fuel_summation.py L161-164 *)
Definition capacity_feasible (ignore : bool) (o : fuel_out) : Prop :=
  if ignore then True else (0 <= excess_capacity o)%R.
