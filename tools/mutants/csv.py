MUTANTS = []
def M(definition, edit, breaks, old, new, **kw):
    MUTANTS.append(dict(file='CsvModel.v', definition=definition, edit=edit, breaks=breaks, old=old, new=new, **kw))
M('header_cells', 'valid_indices counts recognised columns instead of file columns', 'C09 skipped columns do not shift the others',
  'h_idx := h_idx h ++ [i] |}', 'h_idx := h_idx h ++ [length (h_idx h)] |}')
M('append_row', 'new values put at the front of the column', 'C09 rows in file order', '(n, (u, col ++ [x])) :: r', '(n, (u, x :: col)) :: r')
M('append_row', 'k-th variable takes the k-th cell', 'C09 skipped columns do not shift the others',
  'match nth_error row i with', 'match nth_error row (length d\' + 0 * i) with')
M('header_cell', 'output label recorded as input', 'C08 labels survive', 'go LOutput (pop_first', 'go LInput (pop_first')
M('header_cell', 'units ignored, default used', 'C08 units survive', 'let units := last item [] in ', 'let units := default_units in ')
M('split_cells', 'look-ahead dropped', 'C08 header cells with units and label stay together', '(is_delim c && negb (next_closes l\'))%bool', 'is_delim c')
M('cut_hash', 'comment text kept in the data', 'C08 comments survive and are not data', 'if is_hash c then ([], Some l\')', 'if is_hash c then (l\', Some l\')')
M('pad', 'cells padded on the right of the comma', 'none: trailing blanks before a delimiter stay in the cell, so header names would get a trailing underscore?',
  'repeat " "%char (w - length s) ++ s', 's ++ repeat " "%char (w - length s)', note='the theorem needs number parsing without trailing blanks; the proof breaks as it should because names would be padded')
M('header_text', 'units omitted when labels are written', 'C08 units survive', '(match info with [] => [] | _ => info ++ lit ", " end)\n', '[]\n')
M('header_text', 'unitless written out as units', 'C08 text of unitless columns', 'if str_eqb units (lit "unitless") then [] else units', 'units')
M('header_text', 'labels swapped', 'C08 labels survive', '(if mem_str name os then lit "output" else lit "input")', '(if mem_str name os then lit "input" else lit "output")')
M('write_data_file', 'last row dropped', 'C08 values survive', '(seq 0 (length c0)))', '(seq 0 (length c0 - 1)))')
M('write_data_file', 'no blank line or newline after the comments: comments dropped', 'C08 comments survive', 'map write_comment comments ++ [[]]', '[[]]')
M('read_line', 'header searched again after data started', 'C09 (a late text line must raise)', 's_check := false;\n                                  s_in', 's_check := true;\n                                  s_in')
M('to_floats', 'blank cell stops the row', 'C09 blank cells are dropped', '| [] :: cs\' => to_floats cs\'', '| [] :: cs\' => Some []')
M('header_cell', 'input and output both given: treated as input', 'reader rejects a doubly labelled column', 'if mem_str (lit "output") item then Err UserWarning', 'if mem_str (lit "output") item then go LInput (pop_first (lit "input") item)', tightened=['C09_header_rejections'], note='first run: survived')
M('header_cell', 'incompatible units accepted', 'reader rejects units incompatible with the metadata', 'if is_compat units default_units then Ok (Some (name, units, l)) else Err ValueError', 'if (is_compat units default_units || true)%bool then Ok (Some (name, units, l)) else Err ValueError', tightened=['C09_header_rejections'])
M('header_cell', 'unknown units accepted', 'reader rejects unknown units', '            else Err ValueError                                                 (* L166 *)', '            else Ok (Some (name, units, l))')
M('resolve', 'aliases compared case sensitively', 'C09 alias matching ignores case', 'mem_str (lower name) (snd e)', 'mem_str name (snd e)', tightened=['C09_alias_resolution', 'C09_alias_absent'], note='first run: survived')
M('pop_first', 'label removed from the end', 'C08 units survive', 'if str_eqb x y then l\' else y :: pop_first x l\'', 'if str_eqb x y then l\' else pop_first x l\'')
