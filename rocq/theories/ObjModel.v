(** Model of the objective builders.

    /repo/aviary/core/aviary_problem.py L854-1018 (add_composite_objective)
    /repo/aviary/core/aviary_problem.py L1020-1093 (add_composite_objective_adv)
    /repo/aviary/core/aviary_problem.py L727-786 (add_objective, choice of target and reference)
    /repo/aviary/variable_info/variables.py L680-688, L735-736 (variable names)
    /repo/aviary/variable_info/enums.py L201-221 (ProblemType)

    Simplifications.  A positional argument is a string, a tuple, or something else; a tuple element
    is a string, a number (bool, int and float are all numbers) or something else.  Numbers are
    rationals and the arithmetic that OpenMDAO's ExecComp performs on the expression string is exact:
    the term [x*w/t] is [(x*w)/t] and evaluating it raises ZeroDivisionError when [t] is zero.  The
    expression is kept as its list of terms instead of a string.  [connect] calls are recorded in
    order.  OpenMDAO itself (name resolution, units) is not modelled.  ['+'.join] of no terms is the
    empty expression, for which ExecComp has no right-hand side. *)
From Coq Require Import QArith Ascii.
From Verif Require Import Base.
Open Scope nat_scope.
Open Scope list_scope.
Open Scope string_scope.
Local Open Scope char_scope.
Local Open Scope string_scope.

Inductive elt : Type := EStr (s : string) | ENum (q : Q) | EOther.
Inductive arg : Type := PStr (s : string) | PTuple (l : list elt) | POther.
Inductive problem_type : Type := SIZING | OFF_DESIGN_MIN_FUEL | OFF_DESIGN_MAX_RANGE | MULTI_MISSION.

Definition FUEL_MASS := "mission:fuel_mass".
Definition FINAL_MASS := "mission:final_mass".
Definition FINAL_TIME := "mission:final_time".
Definition RANGE := "mission:range".
Definition OBJECTIVES_FUEL := "mission:objectives:fuel".
Definition OBJECTIVES_RANGE := "mission:objectives:range".

Definition in_groups (groups : list string) (e : elt) : bool :=
  match e with EStr s => existsb (String.eqb s) groups | _ => false end.

(** One argument: L891-946.  The weight and the output of a 3-tuple are not checked here. *)
Definition parse_arg (groups : list string) (pt : problem_type) (a : arg) : res (string * elt * elt) :=
  match a with
  | PTuple [model; output; weight] =>                                        (* L892-897 *)
    match model with
    | EStr m => if in_groups groups model then Ok (m, output, weight) else Err ValueError
    | _ => Err ValueError
    end
  | PTuple [first; second] =>                                                (* L898-920 *)
    match first, second with
    | EStr f, EStr s => if in_groups groups first then Ok (f, EStr s, ENum 1) else Err ValueError
    | EStr f, ENum w => if in_groups groups first then Err ValueError else Ok ("model", EStr f, ENum w)
    | _, _ => Err ValueError
    end
  | PStr s =>                                                                (* L921-929 *)
    if in_groups groups (EStr s) then Err ValueError else Ok ("model", EStr s, ENum 1)
  | _ =>                                                                     (* L932-945 *)
    match pt with
    | SIZING => Ok ("model", EStr OBJECTIVES_FUEL, ENum 1)
    | OFF_DESIGN_MIN_FUEL => Ok ("model", EStr OBJECTIVES_FUEL, ENum 1)
    | OFF_DESIGN_MAX_RANGE => Ok ("model", EStr OBJECTIVES_RANGE, ENum 1)
    | MULTI_MISSION => Err ValueError
    end
  end.

Fixpoint parse_args (groups : list string) (pt : problem_type) (l : list arg)
  : res (list (string * elt * elt)) :=
  match l with
  | [] => Ok []
  | a :: l' => rbind (parse_arg groups pt a) (fun t => rbind (parse_args groups pt l') (fun ts => Ok (t :: ts)))
  end.

(** Short names and the default reference: L954-982. *)
Definition clean_output (o : elt) : elt :=
  match o with
  | EStr s =>
    if String.eqb s "fuel_burned" then EStr FUEL_MASS
    else if String.eqb s "fuel" then EStr OBJECTIVES_FUEL
    else if String.eqb s "mass" then EStr FINAL_MASS
    else if String.eqb s "time" then EStr FINAL_TIME
    else if String.eqb s "range" then EStr RANGE
    else o
  | _ => o
  end.

Definition next_ref (nargs : nat) (ref : option Q) (o : elt) : option Q :=
  match o, ref with
  | EStr s, None =>
    if Nat.eqb nargs 1 then
      if String.eqb s "fuel_burned" then Some (10000 # 1)%Q
      else if String.eqb s "fuel" then Some (10000 # 1)%Q
      else if String.eqb s "mass" then Some (- 50000 # 1)%Q
      else None
    else None
  | _, _ => ref
  end.

(** [sum(weight ...)]: L988. *)
Fixpoint sum_weights (acc : Q) (l : list (string * elt * elt)) : res Q :=
  match l with
  | [] => Ok acc
  | (_, _, ENum w) :: l' => sum_weights (acc + w)%Q l'
  | _ :: _ => Err TypeError
  end.

(** [output.replace(':', '_')]: L990. *)
Fixpoint replace_colon (s : string) : string :=
  match s with
  | "" => ""
  | String c s' => String (if Ascii.eqb c ":" then "_"%char else c) (replace_colon s')
  end.

Record term : Type := { t_input : string; t_weight : Q; t_total : Q }.
Definition connection : Type := (string * string)%type.              (* connect(first, second) *)

Fixpoint build_terms (total : Q) (l : list (string * elt * elt)) : res (list term * list connection) :=
  match l with                                                               (* L989-998 *)
  | [] => Ok ([], [])
  | (model, EStr output, ENum w) :: l' =>
    rbind (build_terms total l') (fun r =>
      let safe := replace_colon output in
      Ok ({| t_input := model ++ "_" ++ safe; t_weight := w; t_total := total |} :: fst r,
          (model ++ "." ++ output, "composite_function." ++ model ++ "_" ++ safe) :: snd r))
  | _ :: _ => Err AttributeError
  end.

Record composite : Type := { c_terms : list term; c_connects : list connection; c_ref : option Q }.

Definition add_composite_objective (groups : list string) (pt : problem_type) (args : list arg)
  (ref : option Q) : res composite :=
  rbind (parse_args groups pt args) (fun objs =>
  let ref' := fold_left (next_ref (List.length args)) (map (fun t => snd (fst t)) objs) ref in
  let cleaned := map (fun t => (fst (fst t), clean_output (snd (fst t)), snd t)) objs in
  rbind (sum_weights 0 cleaned) (fun total =>
  rbind (build_terms total cleaned) (fun tc =>
    Ok {| c_terms := fst tc; c_connects := snd tc; c_ref := ref' |}))).

(** What ExecComp computes from the expression. *)
Fixpoint eval_terms (env : string -> Q) (l : list term) : res Q :=
  match l with
  | [] => Ok 0%Q
  | t :: l' =>
    if Qeq_bool (t_total t) 0 then Err ZeroDivisionError
    else rbind (eval_terms env l') (fun v => Ok (env (t_input t) * t_weight t / t_total t + v)%Q)
  end.

(** ** add_composite_objective_adv: L1020-1093 *)
Definition qsum (l : list Q) : Q := fold_left Qplus l 0%Q.

(** L1072-1073; Python raises ZeroDivisionError for lists of int or float (numpy warns instead). *)
Definition normalise (l : list Q) : res (list Q) :=
  match l with
  | [] => Ok []
  | _ => if Qeq_bool (qsum l) 0 then Err ZeroDivisionError else Ok (map (fun w => w / qsum l)%Q l)
  end.

Record adv_term : Type := { a_input : string; a_output_weight : Q; a_mission_weight : Q }.

Definition ones (n : nat) : list Q := repeat 1%Q n.

Definition add_composite_objective_adv (missions outputs : list string)
  (mission_weights output_weights : option (list Q)) : res (list adv_term * list connection) :=
  let mw := match mission_weights with Some l => l | None => ones (List.length missions) end in
  let ow := match output_weights with Some l => l | None => ones (List.length outputs) end in
  rbind (normalise ow) (fun ow' =>
  rbind (normalise mw) (fun mw' =>
    let pairs := flat_map (fun m => map (fun o => (m, o)) (combine outputs ow')) (combine missions mw') in
    Ok (map (fun p => {| a_input := fst (fst p) ++ "_" ++ fst (snd p);
                         a_output_weight := snd (snd p); a_mission_weight := snd (fst p) |}) pairs,
        map (fun p => ("composite_function." ++ fst (fst p) ++ "_" ++ fst (snd p),
                       fst (fst p) ++ "." ++ fst (snd p))) pairs))).

(** ** add_objective: L727-786.  [OMass] and [OTime] are the final points of the last main phase. *)
Inductive target : Type := OMass | OTime | OHybrid | OVar (name : string).

Definition default_ref (s : string) : option Q :=
  if String.eqb s "mass" then Some (50000 # 1)%Q
  else if String.eqb s "hybrid_objective" then Some (50000 # 1)%Q
  else if String.eqb s "fuel_burned" then Some (10000 # 1)%Q
  else if String.eqb s "fuel" then Some (10000 # 1)%Q
  else None.

(** The second component is the reference passed on; [None] when it is left out (L754). *)
Definition add_objective (objective_type : option string) (pt : problem_type) (ref : option Q)
  : res (target * option Q) :=
  match objective_type with
  | Some s =>
    let r := match ref with
             | Some q => q
             | None => match default_ref s with Some q => q | None => 1%Q end
             end in
    if String.eqb s "mass" then Ok (OMass, Some r)
    else if String.eqb s "time" then Ok (OTime, Some r)
    else if String.eqb s "hybrid_objective" then Ok (OHybrid, None)
    else if String.eqb s "fuel_burned" then Ok (OVar FUEL_MASS, Some r)
    else if String.eqb s "fuel" then Ok (OVar OBJECTIVES_FUEL, Some r)
    else Err ValueError
  | None =>
    let r := match ref with Some q => q | None => 1%Q end in
    match pt with
    | SIZING => Ok (OVar OBJECTIVES_FUEL, Some r)
    | OFF_DESIGN_MIN_FUEL => Ok (OVar OBJECTIVES_FUEL, Some r)
    | OFF_DESIGN_MAX_RANGE => Ok (OVar OBJECTIVES_RANGE, Some r)
    | MULTI_MISSION => Err ValueError
    end
  end.
