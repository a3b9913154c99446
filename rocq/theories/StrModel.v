(** Model of the conversion of input tokens to data and of the vehicle deck reader
    (/repo/aviary/utils/functions.py: convert_strings_to_data L94-129;
     /repo/aviary/utils/process_input_decks.py: parse_inputs L132-218).

    Characters are ASCII.  [int] and [float] follow the Python grammar (Python language reference 2.4.5, 2.4.6 and the
    documentation of the int and float constructors: surrounding white space, a sign, digits with single
    underscores between them).  The value of a float token is the rational number it denotes; rounding to
    a machine number is not modelled.  [float] is only ever called on a token that contains a '.', so the
    spellings inf, infinity and nan cannot occur. *)
From Coq Require Import Ascii QArith.
From Verif Require Import Base CsvModel.
Open Scope nat_scope.

Definition digit_val (c : ascii) : option Z :=
  let n := nat_of_ascii c in
  if (Nat.leb 48 n && Nat.leb n 57)%bool then Some (Z.of_nat (n - 48)) else None.

(** digits with single underscores between them: value and number of digits *)
Fixpoint dpart (acc : Z) (n : nat) (after_digit : bool) (s : str) : option (Z * nat) :=
  match s with
  | [] => if after_digit then Some (acc, n) else None
  | c :: r => match digit_val c with
              | Some d => dpart (10 * acc + d)%Z (S n) true r
              | None => if after_digit && Ascii.eqb c "_" then dpart acc n false r else None
              end
  end.
Definition digit_part (s : str) : option (Z * nat) := dpart 0 0 false s.

Definition sign (s : str) : Z * str :=
  match s with
  | c :: r => if Ascii.eqb c "+" then (1%Z, r) else if Ascii.eqb c "-" then ((-1)%Z, r) else (1%Z, s)
  | [] => (1%Z, s)
  end.

(** int(dat); None: ValueError *)
Definition py_int (s : str) : option Z :=
  let (g, r) := sign (strip s) in
  match digit_part r with Some (v, _) => Some (g * v)%Z | None => None end.

(** text before and behind the first character satisfying p *)
Fixpoint cut_at (p : ascii -> bool) (l : str) : str * option str :=
  match l with
  | [] => ([], None)
  | c :: l' => if p c then ([], Some l') else let r := cut_at p l' in (c :: fst r, snd r)
  end.
Definition is_dot (c : ascii) : bool := Ascii.eqb c ".".
Definition is_e (c : ascii) : bool := (Ascii.eqb c "e" || Ascii.eqb c "E")%bool.

Definition opt_digits (s : str) : option (Z * nat) := match s with [] => Some (0%Z, 0) | _ => digit_part s end.
Definition exponent (o : option str) : option Z :=
  match o with
  | None => Some 0%Z
  | Some s => let (g, r) := sign s in match digit_part r with Some (v, _) => Some (g * v)%Z | None => None end
  end.
Definition decimal (g i f : Z) (nf : nat) (e : Z) : Q :=
  (inject_Z (g * (i * 10 ^ Z.of_nat nf + f)) * Qpower 10 (e - Z.of_nat nf))%Q.

(** float(dat) for a token with a '.'; None: ValueError *)
Definition py_float (s : str) : option Q :=
  let (g, r) := sign (strip s) in
  match cut_at is_dot r with
  | (a, Some b) =>
      let (f, e) := cut_at is_e b in
      match opt_digits a, opt_digits f, exponent e with
      | Some (i, ni), Some (fr, nf), Some ex => if (ni + nf =? 0) then None else Some (decimal g i fr nf ex)
      | _, _, _ => None
      end
  | (_, None) => None
  end.

Inductive data := DInt (z : Z) | DFloat (q : Q) | DBool (b : bool) | DStr (s : str).

Definition is_bracket (c : ascii) : bool := (Ascii.eqb c "[" || Ascii.eqb c "]")%bool.
Definition has_dot (s : str) : bool := existsb is_dot s.

(* L119-125 *)
Definition bool_or_str (d : str) : data :=
  if str_eqb (lower d) (lit "true") then DBool true
  else if str_eqb (lower d) (lit "false") then DBool false
  else DStr d.

(* L111-125 *)
Definition convert (s : str) : data :=
  let d := strip_of is_bracket s in
  if has_dot d
  then match py_float d with Some q => DFloat q | None => bool_or_str d end
  else match py_int d with Some z => DInt z | None => bool_or_str d end.

(** L94-129: a list gives a list, a single string a single value *)
Inductive tokens := One (s : str) | Many (l : list str).
Inductive datas := One' (d : data) | Many' (l : list data).
Definition convert_strings_to_data (t : tokens) : datas :=
  match t with One s => One' (convert s) | Many l => Many' (map convert l) end.

(** ** Reading a vehicle deck, parse_inputs *)
Section Deck.
  Variable valid_units : str -> bool.                        (* openmdao.utils.units.valid_units *)
  Variable meta : str -> option (bool * str).                (* meta_data[name]: 'multivalue' and 'units' *)
  Variable guess_names : list str.                           (* keys of initialization_guesses on entry, L158 *)

  Definition is_comma (c : ascii) : bool := Ascii.eqb c ",".
  Definition nonempty (s : str) : bool := match s with [] => false | _ => true end.

  (* L164-168: text before '#', split at commas, stripped, empty items removed *)
  Definition items (line : str) : list str :=
    filter nonempty (map strip (split_on is_comma [] (fst (cut_hash line)))).

  (** value stored: a single datum, a Python list or a numpy array *)
  Inductive value := Scalar (d : data) | PyList (l : list data) | NpArray (l : list data).

  Definition numeric (d : data) : bool :=                    (* isinstance(.., (int, float)), L188; a bool is an int *)
    match d with DStr _ => false | _ => true end.

  (* L185-191 *)
  Definition pack (multi : bool) (l : list data) : res value :=
    match l with
    | [] => Err IndexError                                   (* var_value[0] *)
    | [d] => if multi then Ok (if numeric d then NpArray l else PyList l) else Ok (Scalar d)
    | _ => Ok (PyList l)
    end.

  Inductive action :=
  | SetVar (name : str) (v : value) (units : str)            (* aircraft_values.set_val, L193-196 *)
  | SetGuess (name : str) (v : value)                        (* L199-207 *)
  | Ignored (name : str) (warned : bool).                    (* L210-216; a name without ':' is dropped silently *)

  Definition guess_prefix : str := lit "initialization_guesses:".
  Fixpoint remove_prefix (p s : str) : option str :=
    match p, s with
    | [], _ => Some s
    | a :: p', b :: s' => if Ascii.eqb a b then remove_prefix p' s' else None
    | _ :: _, [] => None
    end.

  Definition last_item (l : list str) : option str := match rev l with [] => None | x :: _ => Some x end.

  (** one line: [Ok None] if it holds no data *)
  Definition parse_line (line : str) : res (option action) :=
    match items line with
    | [] => Ok None                                          (* L170-171 *)
    | name :: vals =>
        match last_item vals with
        | None => Err IndexError                             (* data_list[-1], L178 *)
        | Some u =>
            let (vs, units) := if valid_units u then (removelast vals, Some u) else (vals, None) in  (* L178-180 *)
            rbind (pack (match meta name with Some (m, _) => m | None => false end) (map convert vs)) (fun v =>
            match meta name with
            | Some (_, mu) => Ok (Some (SetVar name v (match units with Some u => u | None => mu end)))
            | None =>
                if mem_str name guess_names then Ok (Some (SetGuess name v))
                else match remove_prefix guess_prefix name with
                     | Some n => Ok (Some (SetGuess n v))
                     | None => Ok (Some (Ignored name (existsb (fun c => Ascii.eqb c ":") name)))
                     end
            end)
        end
    end.

  (** whole file: the actions in order; the first error stops it *)
  Fixpoint parse_inputs (lines : list str) : res (list action) :=
    match lines with
    | [] => Ok []
    | l :: r => rbind (parse_line l) (fun a =>
                rbind (parse_inputs r) (fun acts => Ok (match a with Some x => x :: acts | None => acts end)))
    end.
End Deck.
