(** Conversion of Fortran input decks, /repo/aviary/utils/fortran_to_aviary.py: parse_input_file L187-297,
    process_and_store_data L300-388, set_value L391-430, update_name L449-477, scaler variables L1355-1407.

    Characters are ASCII and a file is a list of lines.  Printing is left out.  The openMDAO function valid_units, the
    regular expression search for deprecated names (L323), the metadata and the default values are parameters. *)
From Coq Require Import Ascii QArith DecimalString.
From Verif Require Import Base CsvModel StrModel.
Open Scope list_scope.
Open Scope nat_scope.

(** ** Lines, L203-297 *)
Definition is_eq (c : ascii) : bool := is_char "=" c.
Definition is_slash (c : ascii) : bool := is_char "/" c.
Definition is_tag (c : ascii) : bool := (is_char "$" c || is_char "&" c)%bool.  (* L217 *)
Definition is_alpha (c : ascii) : bool :=
  let n := nat_of_ascii c in ((Nat.leb 65 n && Nat.leb n 90) || (Nat.leb 97 n && Nat.leb n 122))%bool.
Definition rstrip_of (p : ascii -> bool) (l : str) : str := rev (drop_while p (rev l)).

(** L208-212: text before the first exclamation mark, without white space and trailing commas. *)
Definition squeeze (line : str) : str :=
  rstrip_of is_comma (filter (fun c => negb (is_ws c)) (fst (cut_at (is_char "!") line))).

(** L216-222 for a line that is not empty: namelist, its opening character, the line and whether it ends the namelist.
    The line has no white space, so the first word behind the opening character is all of the text up to the next one. *)
Definition track (namelist : str) (tag : option ascii) (line : str) : res (str * option ascii * str * bool) :=
  match line with
  | [] => Ok (namelist, tag, line, false)
  | c :: _ =>
      if (is_tag c && match tag with None => true | Some _ => false end)%bool then
        match split_on (is_char c) [] line with
        | _ :: (a :: name) :: _ => Ok (a :: name, Some c, line, false)
        | _ => Err IndexError
        end
      else if (match tag with Some t => Ascii.eqb t c | None => false end || is_slash (last line "000"%char))%bool then
        Ok (namelist, tag, filter (fun x => negb (is_slash x)) line, true)
      else Ok (namelist, tag, line, false)
  end.

Definition commas (l : list str) : str :=
  match l with [] => [] | a :: r => a ++ concat (map (fun s => ","%char :: s) r) end.

(** text up to the first letter, and the rest *)
Fixpoint until_alpha (l : str) : str * str :=
  match l with
  | [] => ([], [])
  | c :: r => if is_alpha c then ([], l) else (c :: fst (until_alpha r), snd (until_alpha r))
  end.

(** L224-292: the assignments of a line in order, and the exception raised behind them.  [rest] are the texts behind the
    equal signs. *)
Fixpoint pairs (var : str) (rest : list str) : list (str * str) * option exn :=
  match rest with
  | [] => ([], None)
  | d :: rest' =>
      match rest' with
      | [] => ([(var, d)], None)
      | _ :: _ =>
          let items := split_on is_comma [] d in
          match last items [] with
          | [] => ([], Some IndexError)  (* next_var_name[0], L261 *)
          | c :: name =>
              let '(vals, next) := if is_alpha c then (removelast items, c :: name)
                                   else (removelast items ++ [fst (until_alpha (c :: name))], snd (until_alpha (c :: name))) in
              let r := pairs next rest' in
              ((var, commas vals) :: fst r, snd r)
          end
      end
  end.
Definition assignments (line : str) : list (str * str) * option exn :=
  match split_on is_eq [] line with [] => ([], None) | v :: rest => pairs v rest end.

Section Parse.
  Context {A : Type}.
  Variable store : str -> str -> str -> A -> res A.  (* process_and_store_data: namelist, name, data *)

  (** L230-251: any exception outside of a namelist becomes RuntimeError. *)
  Definition guarded (namelist : str) (r : res A) : res A :=
    match r with Ok a => Ok a | Err e => Err (match namelist with [] => RuntimeError | _ => e end) end.

  Fixpoint store_all (namelist : str) (l : list (str * str)) (a : A) : res A :=
    match l with
    | [] => Ok a
    | (v, d) :: l' => rbind (guarded namelist (store namelist v d a)) (store_all namelist l')
    end.

  Definition pstate : Type := str * option ascii * A.

  Definition parse_line (s : pstate) (raw : str) : res pstate :=
    let '(namelist, tag, a) := s in
    match squeeze raw with
    | [] => Ok s  (* L213-214 *)
    | line =>
        rbind (track namelist tag line) (fun t =>
        let '(namelist', tag', line', terminate) := t in
        let p := assignments line' in
        rbind (store_all namelist' (fst p) a) (fun a' =>
        match snd p with
        | Some e => Err e
        | None => Ok (if terminate then ([], None, a') else (namelist', tag', a'))  (* L294-295 *)
        end))
    end.

  Fixpoint parse_lines (s : pstate) (lines : list str) : res pstate :=
    match lines with [] => Ok s | l :: r => rbind (parse_line s l) (fun s' => parse_lines s' r) end.

  Definition parse_input_file (lines : list str) (a : A) : res A :=
    rbind (parse_lines ([], None, a) lines) (fun s => Ok (snd s)).
End Parse.

(** ** Names, L449-477 *)
Definition ends_with (s suffix : str) : bool := match remove_prefix (rev suffix) (rev s) with Some _ => true | None => false end.
Definition decimal_text (z : Z) : str := lit (NilZero.string_of_int (Z.to_int z)).

Fixpoint match_names (key : str) (names : list str) (var : str) (ind : option Z) : list str * option Z :=
  match names with
  | [] => ([], ind)
  | n :: r =>
      if ends_with (lower n) (lower var) then
        let m := match_names key r var ind in (key :: fst m, snd m)
      else match ind with
           | Some i => if ends_with (lower n) (lower var ++ "("%char :: decimal_text i ++ [")"%char]) then
                         let m := match_names key r var None in (key :: fst m, snd m)
                       else match_names key r var ind
           | None => match_names key r var ind
           end
  end.
Fixpoint match_keys (alternate : list (str * list str)) (var : str) (ind : option Z) : list str * option Z :=
  match alternate with
  | [] => ([], ind)
  | (k, ns) :: r =>
      let m := match_names k ns var ind in
      let m' := match_keys r var (snd m) in (fst m ++ fst m', snd m')
  end.

Definition is_open (c : ascii) : bool := is_char "(" c.
Definition is_close (c : ascii) : bool := is_char ")" c.
Definition update_name (alternate : list (str * list str)) (var : str) : res (list str * option Z) :=
  let found v ind := let m := match_keys alternate v ind in Ok (match fst m with [] => [v] | l => l end, snd m) in
  match split_on is_open [] var with
  | v :: i :: _ => match py_int (fst (cut_at is_close i)) with Some z => found v (Some z) | None => Err ValueError end
  | _ => found var None
  end.

(** ** Values, L391-430 *)
(** None is the value None of Python.  Units of length zero stand for no units. *)
Definition dict : Type := list (str * (list (option data) * str)).

(** Python's l[i] = v *)
Definition pyset {B} (l : list B) (i : Z) (v : B) : res (list B) :=
  let n := Z.of_nat (length l) in
  let k := if Z.ltb i 0 then (i + n)%Z else i in
  if (Z.ltb k 0 || Z.leb n k)%bool then Err IndexError
  else Ok (firstn (Z.to_nat k) l ++ v :: skipn (S (Z.to_nat k)) l).

(** d == z of Python for a number z *)
Definition equals (d : option data) (z : Z) : bool :=
  match d with
  | Some (DInt i) => Z.eqb i z
  | Some (DFloat q) => Qeq_bool q (inject_Z z)
  | Some (DBool b) => Z.eqb (if b then 1 else 0) z
  | _ => false
  end.

Definition text (s : string) : list (option data) := [Some (DStr (lit s))].

Section Store.
  Variable core : str -> option str.  (* CoreMetaData[name]['units'] *)

  Definition set_value (name : str) (vals : list (option data)) (units : str) (d : dict) (ind : option Z) : res dict :=
    let cur := aget name d in
    let u := match cur with
             | Some (_, u) => u
             | None => match units, core name with [], Some c => c | _, _ => units end
             end in
    let u := match u with [] => lit "unitless" | _ => u end in  (* L399-407 *)
    match ind with
    | Some i =>  (* L409-418 *)
        let l := match cur with
                 | Some (l, _) => l ++ repeat (Some (DInt 0)) (Z.to_nat (i - (Z.of_nat (length l) - 1)))
                 | None => None :: repeat (Some (DInt 0)) (Z.to_nat i)
                 end in
        match vals with
        | [] => Err IndexError
        | v :: _ => rbind (pyset l i v) (fun l' => Ok (aset name (l', u) d))
        end
    | None =>  (* L419-429 *)
        match cur with
        | Some ([], _) => Err IndexError
        | Some (Some (DBool _) :: _, _) =>
            match vals with
            | [] => Err IndexError
            | v :: _ => Ok (aset name (if equals v 1 then text "True" else if equals v 0 then text "False" else vals, u) d)
            end
        | _ => Ok (aset name (vals, u) d)
        end
    end.

  (** ** Storing an assignment, L300-388 *)
  Variable valid_units : str -> bool.
  Variable deprecated : str -> res bool.  (* L323 *)
  Variable alternate : list (str * list str).
  Variable defaults : str -> option str.  (* units of the default value *)
  Variable guess_names : list str.
  Variable gasp : bool.
  Variable to_float : option data -> res Q.

  Record vehicle := { inputs : dict; unused : dict; guesses : list (str * Q) }.

  (** 1 / v of L348 *)
  Definition reciprocal_error (v : option data) : option exn :=
    match v with
    | Some (DStr _) | None => Some TypeError
    | _ => if equals v 0 then Some ZeroDivisionError else None
    end.
  Fixpoint first_error (l : list (option data)) : exn :=
    match l with [] => TypeError | v :: r => match reciprocal_error v with Some e => e | None => first_error r end end.

  Definition full (namelist var : str) : str := namelist ++ "."%char :: var.

  (** L357-388 for one name *)
  Definition store_name (namelist var : str) (skip : bool) (vals : list (option data)) (units : str) (ind : option Z)
      (name : str) (v : vehicle) : res (vehicle * str) :=
    let keep u := rbind (set_value name vals u (unused v) ind) (fun d =>
      Ok ({| inputs := inputs v; unused := d; guesses := guesses v |}, u)) in
    if skip then keep units
    else if (mem_str name guess_names && gasp)%bool then
      match vals with
      | [] => Err IndexError
      | x :: _ => rbind (to_float x) (fun q =>
          Ok ({| inputs := inputs v; unused := unused v; guesses := aset name q (guesses v) |}, units))
      end
    else match core name with
    | Some _ =>
        let u := match defaults (full namelist var) with Some u => u | None => [] end in  (* L365-368 *)
        rbind (set_value name vals u (inputs v) ind) (fun d =>
          Ok ({| inputs := d; unused := unused v; guesses := guesses v |}, u))
    | None => keep units
    end.

  Fixpoint store_names (namelist var : str) (skip : bool) (vals : list (option data)) (units : str) (ind : option Z)
      (names : list str) (v : vehicle) : res vehicle :=
    match names with
    | [] => Ok v
    | n :: r => rbind (store_name namelist var skip vals units ind n v) (fun p =>
                store_names namelist var skip vals (snd p) ind r (fst p))
    end.

  Definition process (namelist var data : str) (v : vehicle) : res vehicle :=
    rbind (deprecated (full namelist var)) (fun dep =>
    if dep then Ok v
    else
      let items := filter nonempty (split_on is_comma [] data) in  (* L326 *)
      let '(skip, vals, units) :=
        match rev items with
        | [] => (true, [], [])
        | u :: _ => if valid_units u then (false, removelast items, u) else (false, items, [])
        end in  (* L327-335 *)
      let vals := map (fun s => Some (convert s)) vals in
      rbind (update_name alternate (full namelist var)) (fun m =>
      let ind := match snd m with
                 | Some i => Some (match namelist with [] => i | _ => i - 1 end)%Z
                 | None => None
                 end in  (* L341-344 *)
      if str_eqb (full namelist var) (lit "INPROP.GR") then Err (first_error vals)  (* L347-355: two values for units *)
      else store_names namelist var skip vals units ind (fst m) v)).

  (** L96-121: the default values are stored like assignments of a deck, then the deck is read. *)
  Fixpoint store_defaults (l : list (str * str * str)) (v : vehicle) : res vehicle :=
    match l with [] => Ok v | (n, var, d) :: r => rbind (process n var d v) (store_defaults r) end.
  Definition convert_deck (dflt : list (str * str * str)) (lines : list str) (guess0 : list (str * Q)) : res vehicle :=
    rbind (store_defaults dflt {| inputs := []; unused := []; guesses := guess0 |}) (parse_input_file process lines).
End Store.

(** ** Scaler variables, L1355-1407 *)
Definition adelete {B} (k : str) (d : list (str * B)) : list (str * B) := filter (fun e => negb (str_eqb k (fst e))) d.

(** A value compared with a number: bool, int and float are numbers, everything else raises TypeError. *)
Definition number (d : option data) : res Q :=
  match d with
  | Some (DInt z) => Ok (inject_Z z)
  | Some (DFloat q) => Ok q
  | Some (DBool b) => Ok (inject_Z (if b then 1 else 0))
  | _ => Err TypeError
  end.
Fixpoint contains (s sub : str) : bool :=
  match remove_prefix sub s with
  | Some _ => true
  | None => match s with [] => false | _ :: r => contains r sub end
  end.

(** The scalers of the metadata are stored without units; get_val of a value with other units is taken to raise TypeError. *)
Definition update_scaler (limit : Z) (var : str) (d : dict) : res dict :=
  let scaler := var ++ lit "_scaler" in
  match aget scaler d with
  | None => Ok d
  | Some ([], _) => Err IndexError
  | Some (v :: _, u) =>
      if negb (str_eqb u (lit "unitless")) then Err TypeError
      else rbind (number v) (fun q =>
        if Qle_bool q 0 then Ok (adelete scaler d)
        else if Qle_bool q (inject_Z limit) then Ok d  (* below the limit, or equal to it: no branch applies *)
        else Ok (adelete scaler (aset var ([v], lit (if contains (lower var) (lit "area") then "ft**2" else "lbm")) d)))
  end.
