(** Character-level model of the data file reader and writer
    (/repo/aviary/utils/csv_data_file.py: read_data_file L17-213, write_data_file L219-340).

    A file is the list of its lines without the newline characters.  Outside the model: path handling,
    warnings, the timestamp line, text encoding.  The float type and its [str] / [float] functions, and
    OpenMDAO's [valid_units] / [is_compatible], are parameters. *)
From Coq Require Import Ascii.
From Verif Require Import Base.

Definition str := list ascii.
Definition lit : string -> str := list_ascii_of_string.

Definition str_eqb (a b : str) : bool := if list_eq_dec ascii_dec a b then true else false.

(** Python whitespace (ASCII part): \t \n \v \f \r, \x1c-\x1f and the blank. *)
Definition is_ws (c : ascii) : bool :=
  let n := nat_of_ascii c in
  ((Nat.leb 9 n && Nat.leb n 13) || (Nat.leb 28 n && Nat.leb n 32))%bool.
Definition is_char (x : ascii) (c : ascii) : bool := Ascii.eqb x c.
Definition is_delim (c : ascii) : bool := (Ascii.eqb c "," || Ascii.eqb c ";")%bool.
Definition is_hash (c : ascii) : bool := Ascii.eqb c "#".

Fixpoint drop_while (p : ascii -> bool) (l : str) : str :=
  match l with
  | [] => []
  | c :: l' => if p c then drop_while p l' else l
  end.
(** [s.strip(chars)]. *)
Definition strip_of (p : ascii -> bool) (l : str) : str := rev (drop_while p (rev (drop_while p l))).
Definition strip : str -> str := strip_of is_ws.

Definition lower1 (a : ascii) : ascii :=
  let n := nat_of_ascii a in
  if (Nat.leb 65 n && Nat.leb n 90)%bool then ascii_of_nat (n + 32) else a.
Definition lower : str -> str := map lower1.
(** [re.sub('\\s', '_', item)]. *)
Definition underscores : str -> str := map (fun c => if is_ws c then "_"%char else c).

(** L83-86: the text before the first '#', and the text after it if there is one. *)
Fixpoint cut_hash (l : str) : str * option str :=
  match l with
  | [] => ([], None)
  | c :: l' => if is_hash c then ([], Some l')
               else let r := cut_hash l' in (c :: fst r, snd r)
  end.

(** The look-ahead [(?![^()]*\))] of L90: true when the next parenthesis is a closing one. *)
Fixpoint next_closes (l : str) : bool :=
  match l with
  | [] => false
  | c :: l' => if Ascii.eqb c "(" then false else if Ascii.eqb c ")" then true else next_closes l'
  end.

(** [re.split(r'[;,]\s*(?![^()]*\))', line)] of L90.  [skip] is true while the white space behind a
    delimiter is being consumed; [cur] is the current cell, reversed.  (The look-ahead stands behind the
    white space, but white space is not a parenthesis, so it may be evaluated right behind the delimiter.) *)
Fixpoint split_cells (skip : bool) (cur : str) (l : str) : list str :=
  match l with
  | [] => [rev cur]
  | c :: l' =>
      if (skip && is_ws c)%bool then split_cells true cur l'
      else if (is_delim c && negb (next_closes l'))%bool then rev cur :: split_cells true [] l'
      else split_cells false (c :: cur) l'
  end.
Definition cells (line : str) : list str := split_cells false [] (strip line).

(** [re.split('[(,]', cell)] of L108. *)
Fixpoint split_on (p : ascii -> bool) (cur : str) (l : str) : list str :=
  match l with
  | [] => [rev cur]
  | c :: l' => if p c then rev cur :: split_on p [] l' else split_on p (c :: cur) l'
  end.
Definition is_open_or_comma (c : ascii) : bool := (Ascii.eqb c "(" || Ascii.eqb c ",")%bool.
Definition is_close_or_blank (c : ascii) : bool := (Ascii.eqb c ")" || Ascii.eqb c " ")%bool.

Definition mem_str (x : str) (l : list str) : bool := existsb (str_eqb x) l.
(** [item.pop(item.index(x))]. *)
Fixpoint pop_first (x : str) (l : list str) : list str :=
  match l with
  | [] => []
  | y :: l' => if str_eqb x y then l' else y :: pop_first x l'
  end.

(** Association lists keyed by [str] (Python dict, insertion ordered). *)
Fixpoint aset {B} (k : str) (b : B) (d : list (str * B)) : list (str * B) :=
  match d with
  | [] => [(k, b)]
  | (k', b') :: d' => if str_eqb k k' then (k', b) :: d' else (k', b') :: aset k b d'
  end.
Fixpoint aget {B} (k : str) (d : list (str * B)) : option B :=
  match d with
  | [] => None
  | (k', b') :: d' => if str_eqb k k' then Some b' else aget k d'
  end.

Inductive label : Type := LNone | LInput | LOutput.

Section Csv.
  Variable num : Type.
  Variable show : num -> str.                  (* str(i) *)
  Variable fl : str -> option num.             (* float(var); None: ValueError *)
  Variable valid_units : str -> bool.
  Variable is_compat : str -> str -> bool.

  (** [metadata]: name -> units ([None]: not given). [aliases]: variable -> list of header spellings. *)
  Definition metadata := option (list (str * str)).
  Definition aliases := list (str * list str).

  (** L70-74: alias spellings, white space to underscores, lower case. *)
  Definition prep_aliases (al : aliases) : aliases :=
    map (fun e => (fst e, map (fun i => lower (underscores i)) (snd e))) al.
  (** L112-117: first key one of whose spellings matches. *)
  Definition resolve (al : aliases) (name : str) : str :=
    match find (fun e => mem_str (lower name) (snd e)) al with
    | Some (k, _) => k
    | None => name
    end.

  (** One header cell, L108-185.  [None]: the column is not recognised and is skipped. *)
  Definition header_cell (md : metadata) (al : aliases) (cell : str) : res (option (str * str * label)) :=
    let item := map (strip_of is_close_or_blank) (split_on is_open_or_comma [] cell) in
    let name := resolve (prep_aliases al) (underscores (hd [] item)) in
    let known := match md with None => Some (lit "unitless") | Some d => aget name d end in
    match known with
    | None => Ok None                                                           (* L122-128 *)
    | Some default_units =>
        let go (l : label) (item : list str) :=
          if Nat.ltb 1 (length item) then                                       (* L149 *)
            let units := last item [] in                                        (* L151 *)
            if valid_units (nth 1 item []) then                                 (* L152 *)
              match md with
              | Some _ => if is_compat units default_units then Ok (Some (name, units, l)) else Err ValueError
              | None => Ok (Some (name, units, l))
              end
            else Err ValueError                                                 (* L166 *)
          else Ok (Some (name, default_units, l)) in                            (* L182 *)
        if Nat.ltb 1 (length item) then                                         (* L133 *)
          if mem_str (lit "input") item then
            if mem_str (lit "output") item then Err UserWarning                 (* L137-141 *)
            else go LInput (pop_first (lit "input") item)
          else if mem_str (lit "output") item then go LOutput (pop_first (lit "output") item)
          else go LNone item
        else go LNone item
    end.

  (** State of the loop L80-204.  [h_data]: name -> (units, raw column, newest value last). *)
  Record header : Type := {
    h_data : list (str * (str * list num));
    h_idx : list nat
  }.
  Record st : Type := {
    s_header : option header;          (* None: the local variable is not bound *)
    s_check : bool;                    (* check_for_header *)
    s_in : list str; s_out : list str; s_comm : list str
  }.
  Definition st0 : st := {| s_header := None; s_check := true; s_in := []; s_out := []; s_comm := [] |}.

  (** L107-185 over the cells of the header line, [i] the column index. *)
  Fixpoint header_cells (md : metadata) (al : aliases) (i : nat) (cs : list str) (h : header) (ins outs : list str)
    : res (header * list str * list str) :=
    match cs with
    | [] => Ok (h, ins, outs)
    | c :: cs' =>
        match header_cell md al c with
        | Err e => Err e
        | Ok None => header_cells md al (S i) cs' h ins outs
        | Ok (Some (n, u, l)) =>
            header_cells md al (S i) cs'
              {| h_data := aset n (u, []) (h_data h); h_idx := h_idx h ++ [i] |}
              (match l with LInput => ins ++ [n] | _ => ins end)
              (match l with LOutput => outs ++ [n] | _ => outs end)
        end
    end.

  (** L98: blank cells are dropped, the others converted; [None] when one is not a number. *)
  Fixpoint to_floats (cs : list str) : option (list num) :=
    match cs with
    | [] => Some []
    | [] :: cs' => to_floats cs'
    | c :: cs' => match fl c, to_floats cs' with Some x, Some xs => Some (x :: xs) | _, _ => None end
    end.

  (** L202-204: append to every column; the k-th variable takes the cell number [h_idx[k]]. *)
  Fixpoint append_row (d : list (str * (str * list num))) (idx : list nat) (row : list num)
    : res (list (str * (str * list num))) :=
    match d with
    | [] => Ok []
    | (n, (u, col)) :: d' =>
        match idx with
        | [] => Err IndexError
        | i :: idx' =>
            match nth_error row i with
            | None => Err IndexError
            | Some x => rbind (append_row d' idx' row) (fun r => Ok ((n, (u, col ++ [x])) :: r))
            end
        end
    end.

  (** Body of the loop over lines L81-204. *)
  Definition read_line (md : metadata) (al : aliases) (s : st) (line : str) : res st :=
    let '(text, comm) := cut_hash line in
    let s := match comm with
             | Some c => {| s_header := s_header s; s_check := s_check s; s_in := s_in s; s_out := s_out s;
                            s_comm := s_comm s ++ [strip c] |}
             | None => s end in
    let cs := cells text in
    match cs with
    | [[]] => Ok s                                                               (* L93-94 *)
    | _ =>
        match to_floats cs with
        | None =>
            if s_check s then
              rbind (header_cells md al 0 cs {| h_data := []; h_idx := [] |} (s_in s) (s_out s))
                (fun r => match r with (h, ins, outs) =>
                   match h_data h with
                   | [] => Err ValueError                                        (* L193 *)
                   | _ => Ok {| s_header := Some h; s_check := false; s_in := ins; s_out := outs;
                                s_comm := s_comm s |}
                   end end)
            else Err ValueError                                                  (* L193 *)
        | Some row =>
            match s_header s with
            | None => Err UnboundLocalError                                              (* header not bound, L202 *)
            | Some h =>
                rbind (append_row (h_data h) (h_idx h) row)
                  (fun d => Ok {| s_header := Some {| h_data := d; h_idx := h_idx h |}; s_check := false;
                                  s_in := s_in s; s_out := s_out s; s_comm := s_comm s |})
            end
        end
    end.

  Fixpoint read_lines (md : metadata) (al : aliases) (s : st) (ls : list str) : res st :=
    match ls with
    | [] => Ok s
    | l :: ls' => rbind (read_line md al s l) (fun s' => read_lines md al s' ls')
    end.

  (** Result: columns in order (name, (units, values)), inputs, outputs, comments. *)
  Definition table := list (str * (str * list num)).
  Definition read_data_file (md : metadata) (al : aliases) (ls : list str)
    : res (table * list str * list str * list str) :=
    rbind (read_lines md al st0 ls)
      (fun s => match s_header s with
                | None => Err UnboundLocalError                                          (* L207 *)
                | Some h => Ok (h_data h, s_in s, s_out s, s_comm s)
                end).

  (** ** Writer *)

  (** L284-302. *)
  Definition header_text (outs : option (list str)) (name units : str) : str :=
    let info := if str_eqb units (lit "unitless") then [] else units in
    let info := match outs with
                | None => info
                | Some os =>
                    (match info with [] => [] | _ => info ++ lit ", " end)
                    ++ (if mem_str name os then lit "output" else lit "input")
                end in
    match info with
    | [] => name
    | _ => name ++ lit " (" ++ info ++ lit ")"
    end.

  (** L306-327: column widths and [%<w>s] formatting. *)
  Definition pad (w : nat) (s : str) : str := repeat " "%char (w - length s) ++ s.
  Definition col_width (first : bool) (h : str) (col : list str) : nat :=
    Nat.max (Nat.max (length h) (list_max (map (@length _) col))) (if first then 0 else 10).

  Definition join (sep : str) (l : list str) : str :=
    match l with
    | [] => []
    | x :: l' => x ++ flat_map (fun y => sep ++ y) l'
    end.

  (** Column texts: padded header and padded values, L303, L307-327. *)
  Definition column (outs : option (list str)) (first : bool) (e : str * (str * list num)) : str * list str :=
    match e with
    | (n, (u, col)) =>
        let h := header_text outs n u in
        let vs := map show col in
        let w := col_width first h vs in
        (pad w h, map (pad w) vs)
    end.
  Definition columns (outs : option (list str)) (t : table) : list (str * list str) :=
    match t with
    | [] => []
    | e :: t' => column outs true e :: map (column outs false) t'
    end.

  (** Row [i] of the transposed text array, L330. *)
  Definition text_row (cols : list (str * list str)) (i : nat) : list str :=
    map (fun c => nth i (snd c) []) cols.

  (** L256-263. *)
  Definition write_comment (c : str) : str :=
    match c with
    | [] => []
    | x :: _ => if is_hash x then c else lit "# " ++ strip c
    end.

  (** [write_data_file]: the lines of the file.  An empty column makes [max] raise (L309), columns of
      different length make [np.array(...)] raise (L330).  No data columns at all is outside the model. *)
  Definition write_data_file (outs : option (list str)) (comments : list str) (t : table) : res (list str) :=
    match t with
    | [] => Err ValueError
    | (_, (_, c0)) :: _ =>
        if existsb (fun e => Nat.eqb (length (snd (snd e))) 0) t then Err ValueError
        else if forallb (fun e => Nat.eqb (length (snd (snd e))) (length c0)) t then
          let cols := columns outs t in
          Ok ((match comments with [] => [] | _ => map write_comment comments ++ [[]] end)
              ++ [join (lit ", ") (map fst cols)]
              ++ map (fun i => join (lit ", ") (text_row cols i)) (seq 0 (length c0)))
        else Err ValueError
    end.
End Csv.
