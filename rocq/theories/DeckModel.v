(** Model of the engine deck preprocessing, /repo/aviary/subsystems/propulsion/engine_deck.py.

    Numbers are rationals [Q] in the default units of propulsion/utils.py L46-64 (columns are converted on
    reading, L388-401, so the unit branches of _check_data, L458-465 and L484-491, are never taken and are
    not modelled).  A column is a list; the columns of one deck have the same length.  Floating point
    rounding, warnings (other than those raised) and message texts are not modelled.  The numpy division
    0/0 is [None] (nan). *)
From Coq Require Import QArith Qabs Qminmax.
From Verif Require Import Base.
Open Scope nat_scope.

(** ** Column names: EngineModelVariables, propulsion/utils.py L24-43 *)
Inductive var :=
| MACH | ALTITUDE | THROTTLE | HYBRID_THROTTLE | THRUST | TAILPIPE_THRUST | GROSS_THRUST | SHAFT_POWER
| SHAFT_POWER_CORRECTED | RAM_DRAG | RPM | FUEL_FLOW | ELECTRIC_POWER_IN | NOX_RATE | TEMPERATURE_T4 | TORQUE.
Scheme Equality for var.
Definition all_vars : list var :=
  [MACH; ALTITUDE; THROTTLE; HYBRID_THROTTLE; THRUST; TAILPIPE_THRUST; GROSS_THRUST; SHAFT_POWER;
   SHAFT_POWER_CORRECTED; RAM_DRAG; RPM; FUEL_FLOW; ELECTRIC_POWER_IN; NOX_RATE; TEMPERATURE_T4; TORQUE].
(* default_required_variables, L95 *)
Definition default_required : list var := [MACH; ALTITUDE; THROTTLE; THRUST].

(** ** _read_data and _check_data, L367-557 *)
(* [ev]: the keys of engine_variables; [dat]: self.data, [None] for a popped key, [Some []] for a variable the
   file does not have (L171-173, L416-417) *)
Record deck := { ev : var -> bool; dat : var -> option (list Q) }.

(* what the file provides; TORQUE is not in [aliases] (L71-92) and is never an engine variable *)
Definition read_data (file : var -> option (list Q)) : deck :=
  {| ev := fun v => match file v with Some _ => negb (var_beq v TORQUE) | None => false end;
     dat := fun v => match file v with Some c => Some c | None => Some [] end |}.

Definition put_col (v : var) (c : list Q) (d : deck) : deck :=
  {| ev := fun u => if var_beq u v then true else ev d u;
     dat := fun u => if var_beq u v then Some c else dat d u |}.
(* L502-510, L526-527: engine_variables.pop, self.data.pop *)
Definition pop_col (v : var) (d : deck) : deck :=
  if ev d v then {| ev := fun u => if var_beq u v then false else ev d u;
                    dat := fun u => if var_beq u v then None else dat d u |}
  else d.
Definition col (d : deck) (v : var) : list Q := match dat d v with Some c => c | None => [] end.

Fixpoint zip2 (f : Q -> Q -> Q) (a b : list Q) : list Q :=
  match a, b with x :: a', y :: b' => f x y :: zip2 f a' b' | _, _ => [] end.
Definition Qltb (x y : Q) : bool := negb (Qle_bool y x).

(* L456-480: net thrust from gross thrust and ram drag *)
Definition net_thrust (tol : Q) (d : deck) : res deck :=
  if ev d RAM_DRAG && ev d GROSS_THRUST then
    let net := zip2 Qminus (col d GROSS_THRUST) (col d RAM_DRAG) in
    if ev d THRUST then
      let r := zip2 (fun a b => Qabs (a - b)) net (col d THRUST) in
      if existsb (fun x => Qltb x tol) r then Err UserWarning                    (* L471 *)
      else Ok d
    else Ok (put_col THRUST net d)                                               (* L478-480 *)
  else Ok d.

(* L482-497 *)
Definition tailpipe (d : deck) : deck :=
  if ev d TAILPIPE_THRUST then
    if ev d THRUST
    then put_col THRUST (zip2 Qplus (col d THRUST) (col d TAILPIPE_THRUST)) d
    else put_col THRUST (col d TAILPIPE_THRUST) d
  else d.

(* L514-527 *)
Definition shaft (verbosity : nat) (d : deck) : deck :=
  if ev d SHAFT_POWER && ev d SHAFT_POWER_CORRECTED && (1 <=? verbosity)
  then pop_col SHAFT_POWER_CORRECTED d else d.

(* L532-541; [filter] collects "missing_variables" *)
Definition check_required (req : list var) (d : deck) : res deck :=
  if forallb (ev d) req then Ok d
  else match filter (fun v => existsb (var_beq v) req) (filter (ev d) all_vars) with
       | [] => Err UserWarning
       | _ => Ok d
       end.

(* np.where(c >= 0) *)
Fixpoint keep_from (i : nat) (c : list Q) : list nat :=
  match c with
  | [] => []
  | x :: c' => if Qle_bool 0 x then i :: keep_from (S i) c' else keep_from (S i) c'
  end.
Definition pick (c : list Q) (idx : list nat) : list Q := map (fun i => nth i c 0%Q) idx.

(* L544-547: data[key][keep_idx] for every key left in data *)
Definition drop_negative (ignore : bool) (d : deck) : res deck :=
  if ignore then
    let idx := keep_from 0 (col d THRUST) in
    if existsb (fun v => match dat d v with
                         | Some c => existsb (fun i => length c <=? i) idx
                         | None => false end) all_vars
    then Err IndexError
    else Ok {| ev := ev d; dat := fun v => option_map (fun c => pick c idx) (dat d v) |}
  else Ok d.

(* L549-554 *)
Definition fill_unused (d : deck) : deck :=
  let n := length (col d ALTITUDE) in
  {| ev := ev d; dat := fun v => option_map (fun c => match c with [] => repeat 0%Q n | _ => c end) (dat d v) |}.

Definition check_data (req : list var) (tol : Q) (verbosity : nat) (ignore : bool)
    (file : var -> option (list Q)) : res deck :=
  rbind (net_thrust tol (read_data file)) (fun d1 =>
  let d2 := pop_col TAILPIPE_THRUST (pop_col GROSS_THRUST (pop_col RAM_DRAG (tailpipe d1))) in
  rbind (check_required req (shaft verbosity d2)) (fun d3 =>
  rbind (drop_negative ignore d3) (fun d4 => Ok (fill_unused d4)))).

(** ** _count_data and _pack_data, L1577-1712 *)
Section Pack.
  (* A row of the sorted deck; [mclose new cur] and [aclose new cur] are the math.isclose tests of L1652-1653
     against the row that started the current Mach number and the row that started the current altitude. *)
  Context {row : Type} (mclose aclose : row -> row -> bool).

  Record counts := { mach_count : nat; alt_count : nat; max_alt_count : nat; data_count : nat;
                     max_data_count : nat; data_indices : nat -> nat -> nat;   (* zero outside, extend_array *)
                     current : option (row * row) }.                             (* None: curr = inf *)
  Definition start : counts :=
    {| mach_count := 0; alt_count := 1; max_alt_count := 0; data_count := 1; max_data_count := 0;
       data_indices := fun _ _ => 0; current := None |}.
  Definition set_at (m : nat -> nat -> nat) (i j v : nat) : nat -> nat -> nat :=
    fun i' j' => if (i' =? i) && (j' =? j) then v else m i' j'.

  Definition same_mach (s : counts) (r : row) : bool :=
    match current s with Some (m, _) => mclose r m | None => false end.
  Definition same_alt (s : counts) (r : row) : bool :=
    match current s with Some (_, a) => aclose r a | None => false end.
  Definition set_current (s : counts) (r : row) (keep_mach : bool) : option (row * row) :=
    match current s with
    | Some (m, _) => Some (if keep_mach then m else r, r)
    | None => Some (r, r)
    end.

  (* one turn of the loop L1649-1706; [by_mach]: INTERPOLATION_SORT is 'mach' *)
  Definition count_row (by_mach : bool) (s : counts) (r : row) : res counts :=
    if same_mach s r then
      if same_alt s r then
        Ok {| mach_count := mach_count s; alt_count := alt_count s; max_alt_count := max_alt_count s;
              data_count := data_count s + 1; max_data_count := max_data_count s;
              data_indices := set_at (data_indices s) (mach_count s - 1) (alt_count s - 1) (data_count s);
              current := current s |}
      else if negb by_mach && (mach_count s <? 2) && (0 <? alt_count s) then Err UserWarning
      else
        Ok {| mach_count := mach_count s; alt_count := alt_count s + 1; max_alt_count := max_alt_count s;
              data_count := 1; max_data_count := Nat.max (max_data_count s) (data_count s);
              data_indices := set_at (data_indices s) (mach_count s - 1) (alt_count s + 1 - 1) 1;
              current := set_current s r true |}
    else if by_mach && (alt_count s <? 2) && (0 <? mach_count s) then Err UserWarning
    else
      Ok {| mach_count := mach_count s + 1; alt_count := 1;
            max_alt_count := Nat.max (max_alt_count s) (alt_count s);
            data_count := 1; max_data_count := Nat.max (max_data_count s) (data_count s);
            data_indices := set_at (data_indices s) (mach_count s + 1 - 1) (1 - 1) 1;
            current := set_current s r false |}.

  Fixpoint count_rows (by_mach : bool) (s : counts) (rows : list row) : res counts :=
    match rows with
    | [] => Ok s
    | r :: rows' => rbind (count_row by_mach s r) (fun s' => count_rows by_mach s' rows')
    end.

  (* A write packed_data[..][M, A, D] = row.  packed_data is the list of the writes, L1589-1610; the cell of a
     row never written holds zeros. *)
  Definition write : Type := (nat * nat * nat) * row.

  (* for D in range(n) starting at D: L1602-1610.  Past the last row nothing is written. *)
  Fixpoint put_rows (dmax M A D n : nat) (rows : list row) : res (list write * list row) :=
    match n, rows with
    | 0, _ | _, [] => Ok ([], rows)
    | S n', r :: rows' =>
        if dmax <=? D then Err IndexError
        else rbind (put_rows dmax M A (S D) n' rows') (fun '(w, rest) => Ok (((M, A, D), r) :: w, rest))
    end.

  Fixpoint fill (di : nat -> nat -> nat) (dmax : nat) (cells : list (nat * nat)) (rows : list row)
    : res (list write) :=
    match cells with
    | [] => Ok []
    | (M, A) :: cells' =>
        if di M A =? 0 then fill di dmax cells' rows                              (* L1597-1599 *)
        else rbind (put_rows dmax M A 0 (di M A + 1) rows) (fun '(w, rest) =>
             rbind (fill di dmax cells' rest) (fun w' => Ok (w ++ w')))
    end.

  Definition cells (mmax amax : nat) : list (nat * nat) := list_prod (seq 0 mmax) (seq 0 amax).  (* L1595-1596 *)

  Definition pack_data (by_mach : bool) (rows : list row) : res (counts * list write) :=
    rbind (count_rows by_mach start rows) (fun s =>
    rbind (fill (data_indices s) (max_data_count s) (cells (mach_count s) (max_alt_count s)) rows) (fun w =>
    Ok (s, w))).

  (* packed_data[..][M, A][:data_indices[M, A] + 1] as seen by _normalize_throttle, L1480; never-written
     entries are [None] (zeros in every column) *)
  Definition packed_at (w : list write) (M A D : nat) : option row :=
    match find (fun e => match fst e with (m, a, d) => (m =? M) && (a =? A) && (d =? D) end) w with
    | Some e => Some (snd e)
    | None => None
    end.
  Definition slice (s : counts) (w : list write) (M A : nat) : list (option row) :=
    map (packed_at w M A) (seq 0 (Nat.min (data_indices s M A + 1) (max_data_count s))).
End Pack.

(** ** Numbers of the deck *)
(* math.isclose(a, b, abs_tol=t) with the default rel_tol=1e-9 *)
Definition isclose (rel t a b : Q) : bool :=
  Qle_bool (Qabs (a - b)) (Qmax (rel * Qmax (Qabs a) (Qabs b)) t).
Definition default_rel : Q := 1 # 1000000000.

Record drow := { r_mach : Q; r_alt : Q; r_throttle : Q; r_hybrid : Q; r_thrust : Q }.
Definition mach_close (t : Q) (r c : drow) : bool := isclose default_rel t (r_mach r) (r_mach c).
Definition alt_close (t : Q) (r c : drow) : bool := isclose default_rel t (r_alt r) (r_alt c).

(** ** normalize, L1725-1754, and _normalize_throttle, L1409-1534 *)
Definition qmax (l : list Q) : Q := match l with [] => 0 | x :: l' => fold_left Qmax l' x end.
Definition qmin (l : list Q) : Q := match l with [] => 0 | x :: l' => fold_left Qmin l' x end.
Definition ndiv (a b : Q) : option Q := if Qeq_bool b 0 then None else Some (a / b)%Q.
Definition normalize (mx mn : option Q) (l : list Q) : list (option Q) :=
  let hi := match mx with Some m => m | None => qmax l end in
  let lo := match mn with Some m => m | None => qmin l end in
  map (fun x => ndiv (x - lo) (hi - lo)) l.

(* _hybrid_throttle_norm, L1422-1464.  The negative entries are rescaled by their own minimum to [-1, 0), the
   positive ones by their own maximum; [neg] and [pos] play the role of the index arrays. *)
Definition hybrid_norm (l : list Q) : list (option Q) :=
  let neg := filter (fun x => Qltb x 0) l in
  let l1 := map (fun x => if Qltb x 0
                          then option_map (fun y => y - 1)%Q (ndiv (x - qmin neg) (0 - qmin neg))
                          else Some x) l in
  let pos := flat_map (fun o => match o with Some x => if Qltb 0 x then [x] else [] | None => [] end) l1 in
  map (fun o => match o with
                | Some x => if Qltb 0 x then ndiv (x - 0) (qmax pos - 0) else Some x
                | None => None end) l1.

(* L1473-1485, L1503-1504: local throttle.  The new column is the concatenation over the cells with data. *)
Definition normalize_local {row} (thr : row -> Q) (s : @counts row) (w : list (@write row)) : list (option Q) :=
  flat_map (fun '(M, A) => if data_indices s M A =? 0 then []
                           else normalize None None (map (fun o => match o with Some r => thr r | None => 0%Q end)
                                                         (slice s w M A)))
           (cells (mach_count s) (max_alt_count s)).
(* L1499-1500 *)
Definition normalize_global (column : list Q) : list (option Q) := normalize None None column.

(** ** _set_reference_thrust, L1286-1407 *)
Record thrusts := { reference : option Q; scaled : option Q; factor : option Q }.

(* L1292-1303 *)
Definition is_sls (alt_tol mach_tol : Q) (r : drow) : bool :=
  Qltb (- alt_tol) (r_alt r) && Qle_bool (r_alt r) alt_tol &&
  Qltb (- mach_tol) (r_mach r) && Qltb (r_mach r) mach_tol.

Definition thrust_close (a b : Q) : bool := isclose (1 # 10000) (1 # 10) a b.     (* L1351-1356 *)

Definition set_reference_thrust (alt_tol mach_tol : Q) (rows : list drow) (t : thrusts) : res (Q * Q * Q) :=
  rbind (match reference t with
         | Some r => Ok r
         | None => match filter (is_sls alt_tol mach_tol) rows with
                   | [] => Err UserWarning                                        (* L1305 *)
                   | l => Ok (qmax (map r_thrust l))                              (* L1313 *)
                   end
         end) (fun ref =>
  match factor t, scaled t with
  | Some f, Some s => if thrust_close s (ref * f) then Ok (ref, ref * f, f)%Q     (* L1367-1377 *)
                      else Err AttributeError                                     (* L1358 *)
  | Some f, None => Ok (ref, ref * f, f)%Q                                        (* L1380-1383 *)
  | None, Some s => if Qeq_bool ref 0 then Err ZeroDivisionError                  (* L1388 *)
                    else Ok (ref, s, s / ref)%Q
  | None, None => Ok (ref, ref, 1)%Q                                              (* L1399-1405 *)
  end).
