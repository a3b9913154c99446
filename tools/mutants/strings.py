MUTANTS = []
def M(definition, edit, breaks, old, new, **kw):
    MUTANTS.append(dict(file='StrModel.v', definition=definition, edit=edit, breaks=breaks, old=old, new=new, **kw))
M('digit_val','digit 9 not recognised','C12','Nat.leb n 57','Nat.leb n 56')
M('dpart','base 8','C12','dpart (10 * acc + d)%Z','dpart (8 * acc + d)%Z')
M('dpart','double underscores accepted','C12','dpart acc n false r else None','dpart acc n true r else None')
M('dpart','leading underscore accepted','C12','if after_digit && Ascii.eqb c "_"','if Ascii.eqb c "_"')
M('sign','minus ignored','C12','then ((-1)%Z, r) else (1%Z, s)','then (1%Z, r) else (1%Z, s)')
M('py_int','white space not stripped','C12','Definition py_int (s : str) : option Z :=\n  let (g, r) := sign (strip s) in','Definition py_int (s : str) : option Z :=\n  let (g, r) := sign s in')
M('py_float','a lone point accepted','C12','if (ni + nf =? 0) then None','if false then None')
M('exponent','exponent sign ignored','C12','match digit_part r with Some (v, _) => Some (g * v)%Z | None => None end\n  end.','match digit_part r with Some (v, _) => Some v | None => None end\n  end.')
M('decimal','fraction digits not scaled','C12','(e - Z.of_nat nf)','e')
M('is_e','upper case E rejected','C12','Ascii.eqb c "e" || Ascii.eqb c "E"','Ascii.eqb c "e" || Ascii.eqb c "e"')
M('convert','float tried when int fails (a corrected program)','C12_classification / scientific refuted must fail','match py_int d with Some z => DInt z | None => bool_or_str d end','match py_int d with Some z => DInt z | None => match py_float d with Some q => DFloat q | None => if str_eqb d (lit "1e5") then DFloat 100000 else bool_or_str d end end')
M('bool_or_str','case sensitive','C12','str_eqb (lower d) (lit "true")','str_eqb d (lit "true")')
M('convert','brackets kept on strings','C12','match py_float d with Some q => DFloat q | None => bool_or_str d end','match py_float d with Some q => DFloat q | None => bool_or_str s end')
M('convert_strings_to_data','list reversed','C12','Many\' (map convert l)','Many\' (map convert (rev l))')
M('items','empty items kept','C45','filter nonempty (map strip','filter (fun _ => true) (map strip')
M('items','items not stripped','C45','(map strip (split_on','(map (fun x => x) (split_on')
M('items','comment not removed','C45','(fst (cut_hash line))','line')
M('pack','single numeric multivalue kept as list','C45','if numeric d then NpArray l else PyList l','PyList l')
M('pack','long lists cut to the first value','C45','| _ => Ok (PyList l)','| d :: _ => Ok (Scalar d)')
M('parse_line','units not removed from the values','C45','(removelast vals, Some u)','(vals, Some u)')
M('parse_line','units of the metadata always used','C45','match units with Some u => u | None => mu end','mu')
M('parse_line','name-only line skipped (a corrected program)','C45_missing_value_refuted must fail','| None => Err IndexError                             (* data','| None => Ok None                             (* data')
M('parse_inputs','later lines dropped after an empty one','C45','| None => acts end','| None => [] end')
M('parse_inputs','actions in reverse','C45','Some x => x :: acts','Some x => acts ++ [x]')
M('parse_line','unknown names always warned','C45','Ignored name (existsb (fun c => Ascii.eqb c ":") name)','Ignored name true')
