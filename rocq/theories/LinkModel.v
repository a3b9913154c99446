(** Model of phase linking.

    /repo/aviary/core/aviary_group.py L977-1128 (the loops of AviaryGroup.link_phases)
    /repo/aviary/core/aviary_group.py L1134-1179 (AviaryGroup._find_scaling)
    /repo/aviary/mission/two_dof/phases/breguet_cruise_phase.py L188-196 and
    /repo/aviary/mission/flight_phase_builder.py L430-438 (get_linked_variables, for the witnesses)

    Simplifications.  A phase is what the loops read from it: its name, its 'user_options'
    dictionary, the set of variables its builder and the subsystems ask to link (a list without
    duplicates, in any order), the name of its integration variable and the names of its dymos
    states.  An option value is a bool, None, or a pair (number or None, units or None); the numbers
    are rationals.  The calls made on dymos objects are recorded as a list of actions in the order
    in which they are made.  The value passed as [connected] is recorded as its truth value.  A name
    that has not been assigned when it is read raises UnboundLocalError; the only such name is
    [opt2], which is therefore threaded through the loops as an optional value. *)
From Coq Require Import QArith.
From Verif Require Import Base.
Open Scope nat_scope.
Open Scope list_scope.
Open Scope string_scope.

Inductive oval : Type :=
| VBool (b : bool)
| VNone
| VPair (x : option Q) (u : option string).

Record phase : Type :=
  { pname : string; info : dict oval; lvars : list string; integ : string; states : list string }.

Record kwargs : Type := { k_ref : option Q; k_ref0 : option Q; k_units : option string }.
Definition no_kwargs : kwargs := {| k_ref := None; k_ref0 := None; k_units := None |}.

Inductive action : Type :=
| ALink (ph1 ph2 var : string) (connected : bool) (kw : kwargs)          (* traj.link_phases *)
| AConstraint (ph1 ph2 var1 var2 : string) (connected : bool) (kw : kwargs)
                                                                 (* traj.add_linkage_constraint *)
| AInputInitialFalse (ph var : string).             (* phase.set_state_options(input_initial=False) *)

(** Python's [d.get(k, None)], [d.get(k, (None, None))] and its unpacking, [x is False], truth. *)
Definition get_opt (d : dict oval) (k : string) : oval :=
  match dget k d with Some v => v | None => VNone end.

Definition get_pair (d : dict oval) (k : string) : res (option Q * option string) :=
  match dget k d with
  | None => Ok (None, None)
  | Some (VPair x u) => Ok (x, u)
  | Some _ => Err TypeError
  end.

Definition is_False (v : oval) : bool := match v with VBool false => true | _ => false end.
Definition is_None (v : oval) : bool := match v with VNone => true | _ => false end.

Definition truthy (v : oval) : bool :=
  match v with VBool b => b | VNone => false | VPair _ _ => true end.

Definition truthy_num (x : option Q) : bool :=
  match x with Some q => negb (Qeq_bool q 0) | None => false end.

(** Python's [sorted] on strings. *)
Fixpoint insert_sorted (x : string) (l : list string) : list string :=
  match l with
  | [] => [x]
  | y :: l' => if String.leb x y then x :: l else y :: insert_sorted x l'
  end.
Definition sorted (l : list string) : list string := fold_right insert_sorted [] l.

Definition mem (x : string) (l : list string) : bool := existsb (String.eqb x) l.

Definition startswith_initial (s : string) : bool := String.prefix "initial_" s.
Definition removeprefix_initial (s : string) : string :=
  if startswith_initial s then substring 8 (String.length s - 8) s else s.

(** L1134-1179 *)
Definition find_scaling (var0 : string) (p1 p2 : phase) (opt2 : oval) : res (kwargs * list action) :=
  let analytic := Nat.ltb (List.length (states p1)) 1 in                     (* L1140 *)
  if negb analytic && String.eqb var0 "time" && negb (String.eqb (integ p1) "time")
  then Ok (no_kwargs, [])                                                    (* L1143-1146 *)
  else
    let var := if negb analytic && negb (String.eqb var0 "time") && String.eqb var0 (integ p1)
               then "time" else var0 in                                      (* L1147-1149 *)
    rbind
      (if String.eqb var "time" then
         rbind (get_pair (info p2) (var ++ "_initial_ref")) (fun ru =>       (* L1153-1156 *)
           match fst ru with
           | Some _ => Ok (ru, None)
           | None => rbind (get_pair (info p1) (var ++ "_duration_ref")) (fun ru' => Ok (ru', None))
           end)
       else
         rbind (get_pair (info p1) (var ++ "_ref")) (fun ru =>               (* L1159-1163 *)
         rbind (get_pair (info p1) (var ++ "_ref0")) (fun r0 =>
           match fst ru with
           | Some _ => Ok (ru, fst r0)
           | None =>
             rbind (get_pair (info p2) (var ++ "_ref")) (fun ru' =>
             rbind (get_pair (info p2) (var ++ "_ref0")) (fun r0' => Ok (ru', fst r0')))
           end)))
      (fun rr =>
         Ok ({| k_ref := fst (fst rr); k_ref0 := snd rr; k_units := snd (fst rr) |}, (* L1165-1171 *)
             if is_None opt2 && negb (String.eqb var "time") && mem var (states p2)  (* L1174-1177 *)
             then [AInputInitialFalse (pname p2) var] else [])).

Definition direct_key (v : string) : string :=                               (* L1052-1055 *)
  if String.eqb v "time" then "time_initial_direct_link" else v ++ "_direct_link".

Definition want_connect (cd : bool) (p2 : phase) (v : string) : bool :=      (* L1056, L1088, L1115 *)
  cd && match dget (direct_key v) (info p2) with Some x => truthy x | None => cd end.

(** Reading [opt2], which may be unassigned. *)
Definition read_opt2 (o : option oval) : res oval :=
  match o with Some v => Ok v | None => Err UnboundLocalError end.

Definition scaling_if (connect : bool) (v : string) (p1 p2 : phase) (opt2 : option oval)
  : res (kwargs * list action) :=
  if connect then Ok (no_kwargs, [])
  else rbind (read_opt2 opt2) (find_scaling v p1 p2).

(** One round of the loop over the common variables: L1034-1075. *)
Definition link_common (cd : bool) (p1 p2 : phase) (v : string) : res (list action) :=
  let opt1 := get_opt (info p1) (v ++ "_optimize") in
  let opt2 := get_opt (info p2) (v ++ "_optimize") in
  if is_False opt1 && is_False opt2 then Ok []
  else
    rbind (get_pair (info p1) (v ++ "_final")) (fun pin1 =>
    rbind (get_pair (info p2) (v ++ "_initial")) (fun pin2 =>
      if truthy_num (fst pin1) && truthy_num (fst pin2) then Ok []
      else
        let connect :=
          if is_False opt2 then false
          else if truthy_num (fst pin2) then false
          else want_connect cd p2 v in
        rbind (scaling_if connect v p1 p2 (Some opt2)) (fun ks =>
          Ok (snd ks ++ [ALink (pname p1) (pname p2) v connect (fst ks)])%list))).

(** One round of the loop over the analytic variables of the downstream phase: L1079-1098. *)
Definition link_down (cd : bool) (p1 p2 : phase) (opt2 : option oval) (var : string)
  : res (list action) :=
  let source := removeprefix_initial var in
  if negb (mem source (lvars p1)) then Ok []
  else
    let connect := want_connect cd p2 source in
    rbind (scaling_if connect source p1 p2 opt2) (fun ks =>
      Ok (snd ks ++ [AConstraint (pname p1) (pname p2) source var connect (fst ks)])%list).

(** One round of the loop over the analytic variables of the upstream phase: L1102-1128. *)
Definition link_up (cd : bool) (p1 p2 : phase) (opt2 : option oval) (var : string)
  : res (list action) :=
  let target := removeprefix_initial var in
  let downstream := filter startswith_initial (lvars p2) in
  if negb (mem target (lvars p2)) then Ok []
  else if mem var downstream || mem target downstream then Ok []
  else
    let connect := want_connect cd p2 target in
    rbind (scaling_if connect target p1 p2 opt2) (fun ks =>
      Ok (snd ks ++ [ALink (pname p1) (pname p2) target connect (fst ks)])%list).

Fixpoint for_each (f : string -> res (list action)) (l : list string) : res (list action) :=
  match l with
  | [] => Ok []
  | x :: l' => rbind (f x) (fun a => rbind (for_each f l') (fun b => Ok (a ++ b)%list))
  end.

(** The body of the loop over consecutive pairs: L1010-1128.  [opt2] keeps its last assignment. *)
Definition common_vars (p1 p2 : phase) : list string :=
  sorted (filter (fun v => mem v (lvars p2)) (lvars p1)).

Definition opt2_after (p1 p2 : phase) (opt2 : option oval) : option oval :=
  fold_left (fun _ v => Some (get_opt (info p2) (v ++ "_optimize"))) (common_vars p1 p2) opt2.

Definition link_pair (cd : bool) (p1 p2 : phase) (opt2 : option oval)
  : res (list action * option oval) :=
  let opt2' := opt2_after p1 p2 opt2 in
  rbind (for_each (link_common cd p1 p2) (common_vars p1 p2)) (fun a =>
  rbind (for_each (link_down cd p1 p2 opt2') (sorted (filter startswith_initial (lvars p2)))) (fun b =>
  rbind (for_each (link_up cd p1 p2 opt2') (sorted (filter startswith_initial (lvars p1)))) (fun c =>
    Ok (a ++ b ++ c, opt2')%list))).

Definition first_reserve (reserves : list string) (nm : string) : bool :=    (* L1024-1026 *)
  match reserves with [] => false | r :: _ => String.eqb nm r end.

Fixpoint link_rest (cd : bool) (reserves : list string) (p1 : phase) (rest : list phase)
  (opt2 : option oval) : res (list action) :=
  match rest with
  | [] => Ok []
  | p2 :: rest' =>
    if first_reserve reserves (pname p2) then link_rest cd reserves p2 rest' opt2
    else
      rbind (link_pair cd p1 p2 opt2) (fun ao =>
      rbind (link_rest cd reserves p2 rest' (snd ao)) (fun b => Ok (fst ao ++ b)%list))
  end.

(** L975-1128; [comm_size] and [parallel] decide [connect_directly] (L984-986). *)
Definition link_phases (comm_size : nat) (parallel : bool) (reserves : list string)
  (phases : list phase) : res (list action) :=
  let cd := negb (Nat.ltb 1 comm_size && parallel) in
  match phases with
  | [] => Ok []
  | p :: rest => if Nat.leb (List.length phases) 1 then Ok [] else link_rest cd reserves p rest None
  end.
