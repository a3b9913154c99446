(** Properties C08 and C09: the data file format. *)
From Coq Require Import Ascii.
From Verif Require Import Base CsvModel CsvProofs CsvRoundTrip.

(** C08. Whatever well-formed table is written (any column widths, comments, labels), reading the file
    gives back the same names in the same order, units, values, labels and comments. *)
Theorem C08_write_then_read :
  forall (num : Type) (show : num -> str) (fl : str -> option num) (valid_units : str -> bool) (is_compat : str -> str -> bool),
    (forall x, word (show x) = true) -> (forall x, fl (show x) = Some x) ->
    (forall s x, fl s = Some x -> ~ In "("%char s) ->
  forall md al outs comments (t : table num),
    t <> [] -> Forall (good_entry num valid_units is_compat md al) t -> NoDup (map fst t) ->
    (exists e, In e t /\ fl (fst e) = None) ->
    (exists k, k > 0 /\ Forall (fun e => length (snd (snd e)) = k) t) ->
    exists ls, write_data_file num show outs comments t = Ok ls /\
      read_data_file num fl valid_units is_compat md al ls
      = Ok (t, ins_of num outs t, outs_of num outs t, flat_map clean_comment comments).
Proof. exact write_read. Qed.
Print Assumptions C08_write_then_read.

(** C08, limits: units written with parentheses cannot be read back, and a unitless column is read in the
    metadata units when metadata with units is supplied. *)
Theorem C08_parenthesised_units_refuted :
  exists ls, write_data_file bool bit_show None [] [(lit "mu", (lit "lbm/(ft*s)", [true; false]))] = Ok ls /\
             some_units (lit "lbm/(ft*s)") = true /\
             read_data_file bool bit_fl some_units any_compat None [] ls = Err ValueError.
Proof. exact paren_units_lost. Qed.
Print Assumptions C08_parenthesised_units_refuted.
Theorem C08_unitless_with_metadata_refuted :
  exists ls, write_data_file bool bit_show None [] [(lit "x", (lit "unitless", [true]))] = Ok ls /\
             read_data_file bool bit_fl some_units any_compat (Some [(lit "x", lit "ft")]) [] ls
             = Ok ([(lit "x", (lit "ft", [true]))], [], [], []).
Proof. exact unitless_becomes_default. Qed.
Print Assumptions C08_unitless_with_metadata_refuted.

(** C09. With full numeric rows and distinct names every returned column is the file's column, in row
    order, also when columns are skipped; labels and comments are returned in file order. *)
Theorem C09_columns_aligned :
  forall (num : Type) (fl : str -> option num) (valid_units : str -> bool) (is_compat : str -> str -> bool)
         md al pre hline body hs hos bos,
    Forall blank pre ->
    cells (fst (cut_hash hline)) = hs -> to_floats num fl hs = None ->
    Forall2 (fun c o => header_cell valid_units is_compat md al c = Ok o) hs hos ->
    numbered 0 hos <> [] ->
    NoDup (map entry_name (numbered 0 hos)) ->
    Forall2 (body_line num fl (length hs)) body bos ->
    exists t, read_data_file num fl valid_units is_compat md al (pre ++ hline :: body) =
                Ok (t, map entry_name (filter (labelled LInput) (numbered 0 hos)),
                       map entry_name (filter (labelled LOutput) (numbered 0 hos)),
                       flat_map comment_of (pre ++ hline :: body)) /\
              Forall2 (is_column num (catopt bos)) (numbered 0 hos) t.
Proof. exact read_whole. Qed.
Print Assumptions C09_columns_aligned.

(** C09. A row too short for the last recognised column is rejected. *)
Theorem C09_short_row_rejected :
  forall (num : Type) fl valid_units is_compat md al s h line row,
  s_header num s = Some h -> length (h_data num h) = length (h_idx num h) ->
  cells (fst (cut_hash line)) <> [[]] ->
  to_floats num fl (cells (fst (cut_hash line))) = Some row ->
  (exists i, In i (h_idx num h) /\ length row <= i) ->
  read_line num fl valid_units is_compat md al s line = Err IndexError.
Proof. exact short_row_line. Qed.
Print Assumptions C09_short_row_rejected.

(** C09. What the reader rejects: unknown units, units incompatible with the metadata, a column labelled
    both input and output, text after the data has started, numbers before the header. *)
Theorem C09_header_rejections :
  forall valid_units is_compat md n u du,
    word n = true -> word u = true -> ~ In n [lit "input"; lit "output"] -> ~ In u [lit "input"; lit "output"] ->
    known md n du ->
    (valid_units u = false -> header_cell valid_units is_compat md [] (n ++ lit " (" ++ u ++ lit ")") = Err ValueError) /\
    (valid_units u = true -> md <> None -> is_compat u du = false ->
       header_cell valid_units is_compat md [] (n ++ lit " (" ++ u ++ lit ")") = Err ValueError) /\
    header_cell valid_units is_compat md [] (n ++ lit " (input, output)") = Err UserWarning.
Proof. exact header_rejects. Qed.
Print Assumptions C09_header_rejections.
Theorem C09_late_text_rejected :
  forall valid_units is_compat num fl md al s line,
    s_check num s = false -> cells (fst (cut_hash line)) <> [[]] ->
    to_floats num fl (cells (fst (cut_hash line))) = None ->
    read_line num fl valid_units is_compat md al s line = Err ValueError.
Proof. exact late_text. Qed.
Print Assumptions C09_late_text_rejected.
Theorem C09_numbers_before_header_rejected :
  forall valid_units is_compat num fl md al s line row,
    s_header num s = None -> cells (fst (cut_hash line)) <> [[]] ->
    to_floats num fl (cells (fst (cut_hash line))) = Some row ->
    read_line num fl valid_units is_compat md al s line = Err UnboundLocalError.
Proof. exact early_number. Qed.
Print Assumptions C09_numbers_before_header_rejected.

(** C09. A header name is replaced by the first variable one of whose aliases has the same spelling up to
    case and white space / underscore. *)
Theorem C09_alias_resolution :
  forall al1 k sp al2 n,
    (forall e i, In e al1 -> In i (snd e) -> ~ same_spelling i n) ->
    (exists i, In i sp /\ same_spelling i n) ->
    resolve (prep_aliases (al1 ++ (k, sp) :: al2)) (underscores n) = k.
Proof. exact resolve_spec. Qed.
Print Assumptions C09_alias_resolution.
Theorem C09_alias_absent :
  forall al n, (forall e i, In e al -> In i (snd e) -> ~ same_spelling i n) ->
    resolve (prep_aliases al) (underscores n) = underscores n.
Proof. exact resolve_none. Qed.
Print Assumptions C09_alias_absent.

(** C09, refutations without the hypotheses: after a blank cell the later numbers move one column to the
    left without an error; a repeated name makes the following columns take their neighbour's numbers. *)
Theorem C09_blank_cell_alignment_refuted :
  read_data_file nat digit_fl some_units any_compat None [] [lit "a, b, c"; lit "1, , 3"; lit "4, 5, 6, 7"]
  = Err IndexError /\
  read_data_file nat digit_fl some_units any_compat (Some [(lit "a", lit "m"); (lit "b", lit "m")]) [] [lit "a, b, c"; lit "1, , 3"]
  = Ok ([(lit "a", (lit "m", [1])); (lit "b", (lit "m", [3]))], [], [], []).
Proof. exact blank_cell_shifts. Qed.
Print Assumptions C09_blank_cell_alignment_refuted.
Theorem C09_repeated_name_alignment_refuted :
  read_data_file nat digit_fl some_units any_compat None [] [lit "a, a, b"; lit "1, 2, 3"]
  = Ok ([(lit "a", (lit "unitless", [1])); (lit "b", (lit "unitless", [2]))], [], [], []).
Proof. exact repeated_name_shifts. Qed.
Print Assumptions C09_repeated_name_alignment_refuted.

(** Witness for C08: a labelled table with units, its hypotheses and its text. *)
Definition wit_table : table bool :=
  [(lit "mach", (lit "unitless", [true; false])); (lit "alt", (lit "ft", [false; false]))].
Example C08_witness :
  Forall (good_entry bool some_units any_compat None []) wit_table /\
  (exists e, In e wit_table /\ bit_fl (fst e) = None) /\
  write_data_file bool bit_show (Some [lit "alt"]) [lit " note "] wit_table
  = Ok [lit "# note"; lit ""; lit "mach (input), alt (ft, output)"; lit "         1.0,          -2.5e-3"; lit "     -2.5e-3,          -2.5e-3"].
Proof.
  split; [|split; [eexists; split; [left; reflexivity|reflexivity]|vm_compute; reflexivity]].
  repeat constructor; try reflexivity; simpl; intuition discriminate.
Qed.
(** Witness for C09: a file with a skipped column, comments and a blank line. *)
Example C09_witness :
  read_data_file nat digit_fl some_units any_compat (Some [(lit "mach", lit "unitless"); (lit "alt", lit "ft")])
    [(lit "alt", [lit "Altitude MSL"])]
    [lit "# top"; lit ""; lit "mach (input), junk; altitude msl (m, output)"; lit "1, 2, 3 # row"; lit "4; 5; 6"]
  = Ok ([(lit "mach", (lit "unitless", [1; 4])); (lit "alt", (lit "m", [3; 6]))], [lit "mach"], [lit "alt"], [lit "top"; lit "row"]).
Proof. vm_compute. reflexivity. Qed.
