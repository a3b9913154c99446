(** Model of the payload-range analysis and of the set-up of the off-design missions it flies.

    /repo/aviary/core/aviary_problem.py L1657-1873 (run_payload_range)
    /repo/aviary/core/aviary_problem.py L1445-1655 (run_off_design_mission: checks, inputs, design
    variables)

    Simplifications.  Masses are rationals in lbm, ranges rationals in NM.  [sized] holds the numbers
    read from the sized problem and its inputs; reading them does not fail.  Flying a mission is an
    arbitrary function [fly] of the set-up it is given: it returns the success flag and the payload,
    range and fuel of the new problem.  The 'cruise' entry of the phase dictionary is missing, empty,
    or has duration bounds; the dictionary that run_payload_range copies is copied shallowly, so the
    bounds it writes are those of the original problem.  Reports, warnings, the name of the new
    problem and the driver are left out. *)
From Coq Require Import QArith.
From Verif Require Import Base.
Open Scope nat_scope.
Open Scope list_scope.

Inductive mass_method : Type := FLOPS | GASP.
Inductive eom : Type := ENERGY_STATE | OTHER_EOM.

Record sized : Type :=
  { s_success : bool; s_multi_mission : bool; s_method : mass_method; s_eom : eom;
    s_payload : Q;              (* Aircraft.CrewPayload.TOTAL_PAYLOAD_MASS *)
    s_range : Q; s_gross : Q; s_operating : Q; s_capacity : Q; s_unusable : Q; s_fuel : Q;
    s_design_gross : Q;         (* Aircraft.Design.GROSS_MASS *)
    s_wing : Q; s_misc : Q; s_first : Q; s_business : Q; s_economy : Q;
    s_cruise : option (option (Q * Q)) }.

(** Arguments of run_off_design_mission that the callers here use. *)
Inductive off_type : Type := T_SIZING | T_MIN_FUEL | T_MAX_RANGE.
Record off_args : Type :=
  { o_type : off_type; o_first : option Z; o_business : option Z; o_economy : option Z;
    o_pax : option Z; o_wing : option Q; o_misc : option Q; o_cargo : option Q;
    o_gross : option Q; o_fill_cargo : bool; o_fill_fuel : bool }.

Inductive dvar : Type := DCargoMass | DWingCargo | DMiscCargo | DGrossMass.

(** The new problem before it is flown: input values that are overwritten and added design variables
    with their upper bounds. *)
Record setup : Type :=
  { i_first : option Z; i_business : option Z; i_economy : option Z; i_pax : option Z;
    i_wing : option Q; i_misc : option Q; i_cargo : option Q; i_gross : option Q;
    dvars : list (dvar * Q); i_cruise : option (option (Q * Q)) }.

Record outcome : Type := { r_success : bool; r_payload : Q; r_range : Q; r_fuel : Q }.

(** Python truth of an optional number. *)
Definition truthyZ (x : option Z) : bool := match x with Some n => negb (Z.eqb n 0) | None => false end.
Definition zeroQ (x : option Q) : bool := match x with Some q => Qeq_bool q 0 | None => true end.
Definition valZ (x : option Z) : Z := match x with Some n => n | None => 0%Z end.

(** L1445-1655 without the mission itself. *)
Definition off_design_setup (s : sized) (cruise : option (option (Q * Q))) (a : off_args) : res setup :=
  match o_type a with
  | T_SIZING => Err UserWarning                                              (* L1449-1450 *)
  | _ =>
    if o_fill_cargo a && o_fill_fuel a then Err UserWarning                  (* L1452-1456 *)
    else
      let flops := match s_method s with FLOPS => true | GASP => false end in
      let pax :=                                                             (* L1494-1499 *)
        if flops && match o_pax a with None => true | Some _ => false end
           && negb (truthyZ (o_economy a) || truthyZ (o_business a) || truthyZ (o_first a))
        then Some (valZ (o_economy a) + valZ (o_business a) + valZ (o_first a))%Z
        else o_pax a in
      let gross :=                                                           (* L1549-1573 *)
        match o_gross a with Some g => g | None => s_design_gross s end in
      let gross_set := match o_type a with T_MIN_FUEL => (gross * (9 # 10))%Q | _ => gross end in
      rbind
        (if o_fill_cargo a then                                              (* L1605-1637 *)
           match s_method s with
           | GASP => match o_cargo a with
                     | Some c => Ok [(DCargoMass, c * (105 # 100))%Q]
                     | None => Err TypeError                                 (* None * 1.05 *)
                     end
           | FLOPS =>
             if zeroQ (o_misc a) then
               if zeroQ (o_wing a) then Ok [(DMiscCargo, s_design_gross s * (5 # 100))%Q]
               else match o_wing a with Some w => Ok [(DWingCargo, w * (11 # 10))%Q] | None => Err TypeError end
             else match o_misc a with Some m => Ok [(DMiscCargo, m * (11 # 10))%Q] | None => Err TypeError end
           end
         else Ok [])
        (fun dv =>
           Ok {| i_first := if flops then o_first a else None;               (* L1502-1513 *)
                 i_business := if flops then o_business a else None;
                 i_economy := if flops then o_economy a else None;
                 i_wing := if flops then o_wing a else None;
                 i_misc := if flops then o_misc a else None;
                 i_pax := pax; i_cargo := o_cargo a;                         (* L1520-1523 *)
                 i_gross := Some gross_set;
                 dvars := dv ++ (if o_fill_fuel a then [(DGrossMass, s_design_gross s)] else []);
                 i_cruise := cruise |})
  end.

(** Python's [int]: truncation towards zero. *)
Definition trunc (q : Q) : Z := Z.quot (Qnum q) (Zpos (Qden q)).

Record row : Type := { p_payload : Q; p_fuel : Q; p_range : Q }.
Inductive answer : Type :=
| ANothing                            (* the empty tuple, with a warning *)
| ANone                               (* falls off the end of the function: None, with a warning *)
| ATable (rows : list row).           (* the four points, written to the csv file *)

Definition point3_args (s : sized) (frac : Q) : off_args :=                  (* L1753-1789 *)
  {| o_type := T_MAX_RANGE; o_first := Some (trunc (s_first s * frac));
     o_business := Some (trunc (s_business s * frac)); o_economy := Some (trunc (s_economy s * frac));
     o_pax := None; o_wing := Some (s_wing s * frac)%Q; o_misc := Some (s_misc s * frac)%Q;
     o_cargo := None; o_gross := None; o_fill_cargo := true; o_fill_fuel := false |}.

Definition ferry_args (s : sized) (gross : Q) : off_args :=                  (* L1809-1827 *)
  {| o_type := T_MAX_RANGE; o_first := Some 0%Z; o_business := Some 0%Z; o_economy := Some 0%Z;
     o_pax := None; o_wing := Some 0%Q; o_misc := Some 0%Q;
     o_cargo := match s_method s with GASP => Some 0%Q | FLOPS => None end;
     o_gross := Some gross; o_fill_cargo := false; o_fill_fuel := true |}.

Definition off_design (fly : setup -> outcome) (s : sized) (cruise : option (option (Q * Q))) (a : off_args)
  : res outcome := rbind (off_design_setup s cruise a) (fun st => Ok (fly st)).

(** The answer and the cruise bounds of the original problem afterwards. *)
Definition run_payload_range (fly : setup -> outcome) (quiet : bool) (s : sized)
  : res answer * option (option (Q * Q)) :=
  if negb (s_success s) && negb quiet then (Ok ANothing, s_cruise s)         (* L1685-1689 *)
  else if s_multi_mission s && negb quiet then (Ok ANothing, s_cruise s)     (* L1690-1695 *)
  else match s_eom s with
  | OTHER_EOM => (Ok ANone, s_cruise s)                                      (* L1869-1873 *)
  | ENERGY_STATE =>
    match s_cruise s with
    | None => (Err KeyError, None)                                           (* L1707 *)
    | Some c =>
      let cruise := match c with                                             (* L1708-1714 *)
                    | Some (lo, hi) => Some (Some (lo, 2 * hi)%Q)
                    | None => Some None
                    end in
      let usable := (s_capacity s - s_unusable s)%Q in                       (* L1739 *)
      let room := Qle_bool (s_gross s) (s_operating s + usable) in           (* L1744: not < *)
      (rbind
        (if room then Ok (None, (s_gross s - s_operating s)%Q)               (* L1801-1804 *)
         else if Qeq_bool (s_payload s) 0 then Err ZeroDivisionError         (* L1750 *)
         else rbind (off_design fly s cruise
                (point3_args s ((s_gross s - s_operating s - usable) / s_payload s)))
                (fun r => Ok (Some r, usable)))
        (fun p3 =>
           rbind (off_design fly s cruise (ferry_args s (s_operating s + snd p3)%Q)) (fun r4 =>
             let ok3 := match fst p3 with Some r => r_success r | None => r_success r4 end in
             if r_success r4 && ok3 then                                     (* L1842-1863 *)
               match fst p3 with
               | None => Err UnboundLocalError                               (* fuel_3 *)
               | Some r3 =>
                 Ok (ATable [{| p_payload := s_payload s; p_fuel := 0; p_range := 0 |};
                             {| p_payload := s_payload s; p_fuel := s_fuel s; p_range := s_range s |};
                             {| p_payload := r_payload r3; p_fuel := r_fuel r3; p_range := r_range r3 |};
                             {| p_payload := r_payload r4; p_fuel := r_fuel r4; p_range := r_range r4 |}])
               end
             else Ok ANone)),                                                (* L1864-1868 *)
       cruise)
    end
  end.
