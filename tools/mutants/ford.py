MUTANTS = []
def M(definition, edit, breaks, old, new, file='ForModel.v', **kw):
    MUTANTS.append(dict(file=file, definition=definition, edit=edit, breaks=breaks, old=old, new=new, **kw))
M('squeeze','comment sign #','C59_deck','(cut_at (is_char "!") line)','(cut_at (is_char "#") line)')
M('squeeze','trailing commas kept','C59_deck','rstrip_of is_comma (filter (fun c => negb (is_ws c)) (fst (cut_at (is_char "!") line)))','filter (fun c => negb (is_ws c)) (fst (cut_at (is_char "!") line))')
M('squeeze','white space kept','C59_deck','filter (fun c => negb (is_ws c))','filter (fun c => true)')
M('is_tag','only the dollar sign opens a namelist','C59_deck','(is_char "$" c || is_char "&" c)%bool','is_char "$" c')
M('track','a namelist can be opened inside of a namelist','C59_deck','(is_tag c && match tag with None => true | Some _ => false end)%bool','is_tag c')
M('track','closed by either sign','C59_one_line... none expected','match tag with Some t => Ascii.eqb t c | None => false end ||','match tag with Some t => is_tag c | None => false end ||')
M('track','slash does not close','C59_deck','|| is_slash (last line "000"%char))%bool','|| false)%bool')
M('track','closing line not stored (slash removed but line dropped)','C59_deck','Ok (namelist, tag, filter (fun x => negb (is_slash x)) line, true)','Ok (namelist, tag, [], true)')
M('track','slash kept on the closing line','C59_deck','filter (fun x => negb (is_slash x)) line, true)','line, true)')
M('pairs','last value lost without comma','C59_deck','(removelast items ++ [fst (until_alpha (c :: name))], snd','(removelast items, snd')
M('pairs','name of the next variable kept as a value','C59_deck','if is_alpha c then (removelast items, c :: name)','if is_alpha c then (items, c :: name)')
M('pairs','empty name accepted','C59_reader_errors witness','| [] => ([], Some IndexError)  (* next_var_name[0], L261 *)','| [] => ([(var, d)], None)')
M('guarded','exceptions inside of namelists wrapped too','C59_deck','match namelist with [] => RuntimeError | _ => e end','RuntimeError')
M('parse_line','namelist not left','C59_deck','Ok (if terminate then ([], None, a\') else (namelist\', tag\', a\'))','Ok (namelist\', tag\', a\')')
M('parse_line','old namelist used for the line','none: an opening line holds no assignments','store_all namelist\' (fst p) a','store_all namelist (fst p) a')
M('match_names','case matters','C59_names','if ends_with (lower n) (lower var) then\n        let m := match_names key r var ind','if ends_with n var then\n        let m := match_names key r var ind')
M('match_names','equal names only (a corrected program)','C59_suffix_refuted must fail','if ends_with (lower n) (lower var) then\n        let m := match_names key r var ind','if str_eqb (lower n) (lower var) then\n        let m := match_names key r var ind')
M('match_names','only the first match of a variable','none: a variable would be listed once','let m := match_names key r var ind in (key :: fst m, snd m)','([key], ind)')
M('match_names','index kept although it is part of the name','C59_witness_names','let m := match_names key r var None in (key :: fst m, snd m)','let m := match_names key r var ind in (key :: fst m, snd m)')
M('update_name','unknown names dropped','C59_names','match fst m with [] => [v] | l => l end','fst m')
M('pyset','negative indices raise (a corrected program)','C59_index_zero_refuted must fail','let k := if Z.ltb i 0 then (i + n)%Z else i in\n  if (Z','let k := i in\n  if (Z')
M('set_value','list not extended','C59_element','l ++ repeat (Some (DInt 0)) (Z.to_nat (i - (Z.of_nat (length l) - 1)))','l')
M('set_value','list extended by one too many','C59_element','(Z.to_nat (i - (Z.of_nat (length l) - 1)))','(Z.to_nat (i - (Z.of_nat (length l) - 2)))')
M('set_value','first element zero (a corrected program)','C59_first_element_refuted must fail','None => None :: repeat (Some (DInt 0)) (Z.to_nat i)','None => Some (DInt 0) :: repeat (Some (DInt 0)) (Z.to_nat i)')
M('set_value','new units replace the old ones','C59_element / C59_whole','| Some (_, u) => u\n             | None => match units','| Some (_, u) => units\n             | None => match units')
M('set_value','default units preferred to given ones','C59_whole','match units, core name with [], Some c => c | _, _ => units end','match core name with Some c => c | _ => units end')
M('set_value','bool stored as bool (a corrected program)','C59_bool_refuted must fail','if equals v 1 then text "True" else if equals v 0 then text "False" else vals','if equals v 1 then [Some (DBool true)] else if equals v 0 then [Some (DBool false)] else vals')
M('store_name','units of the deck used (a corrected program)','C59_units_refuted must fail','let u := match defaults (full namelist var) with Some u => u | None => [] end in  (* L365-368 *)','let u := units in')
M('store_name','unknown names not kept','C59_kept','| None => keep units\n    end.','| None => Ok (v, units)\n    end.')
M('store_name','inputs stored as unused','C59_last_wins','| Some _ =>\n        let u := match defaults','| Some _ => if true then keep units else\n        let u := match defaults')
M('store_names','only the first name','C59_last_wins / C59_kept','store_names namelist var skip vals (snd p) ind r (fst p))','Ok (fst p))')
M('process','units kept among the values','C59_witness_units','(false, removelast items, u) else (false, items, [])','(false, items, u) else (false, items, [])')
M('process','offset outside of namelists too','none yet','match namelist with [] => i | _ => i - 1 end','i - 1')
M('process','gear ratio stored (a corrected program)','C59_gear_refuted must fail','then Err (first_error vals)','then store_names namelist var skip vals units ind (fst m) v')
M('update_scaler','zero kept as scaler (a corrected program)','C59_scaler_refuted must fail','if Qle_bool q 0 then Ok (adelete scaler d)','if negb (Qle_bool 0 q) then Ok (adelete scaler d)')
M('update_scaler','scaler not removed','C59_scaler','else Ok (adelete scaler (aset var','else Ok (id (aset var')
M('update_scaler','area in pounds','C59_witness_scaler','(if contains (lower var) (lit "area") then "ft**2" else "lbm")','(if contains (lower var) (lit "area") then "lbm" else "lbm")')
