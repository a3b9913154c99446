MUTANTS = []
def M(definition, edit, breaks, old, new, **kw):
    MUTANTS.append(dict(file='SaveModel.v', definition=definition, edit=edit, breaks=breaks, old=old, new=new, **kw))
M('tag_of','tuples tagged as lists too','C27_round_trip','PIter ListK _ => TagList | PEnum _ _','PIter _ _ => TagList | PEnum _ _')
M('tag_of','enums not tagged','C27_aviary_enums','| PEnum _ _ => TagEnum | _ => TagOther end.','| _ => TagOther end.')
M('dump','paths written as text','a corrected program where nested paths save',"    | PPath _ => Err TypeError\n","    | PPath s => Ok (JStr s)\n")
M('dump','integers written as floats','C27_round_trip','| PInt z => Ok (JInt z)','| PInt z => Ok (JFloat (ztoqc z))')
M('dump','lists reversed','C27_round_trip','(fun js => Ok (JArr js))','(fun js => Ok (JArr (rev js)))')
M('undump','booleans read as integers','C27_round_trip','| JBool b => PBool b\n    | JInt z => PInt z','| JBool b => PInt (if b then 1 else 0)%Z\n    | JInt z => PInt z')
M('tolist','only the outer array converted','C27_round_trip for nested arrays','PIter ListK (map tolist l)','PIter ListK l')
M('prepare','first enum of a list only','C27_inputs_after / enum list','(fun l\' => Ok (PIter ListK l\'))\n    | PIter ListK (PPath','(fun l\' => Ok (PIter ListK (firstn 1 l\')))\n    | PIter ListK (PPath')
M('prepare','empty list saved (a corrected program)','C27_empty_list_refuted must fail','| PIter ListK [] => Err IndexError  ','| PIter ListK [] => Ok v  ')
M('prepare','enum saved by class name','C27_aviary_enums','| PEnum _ n => Ok (PStr n)\n    | PPath s','| PEnum c _ => Ok (PStr c)\n    | PPath s')
M('prepare','path saved as empty text','C27_round_trip','| PPath s => Ok (PStr s)\n    | _ => Ok v','| PPath s => Ok (PStr "")\n    | _ => Ok v')
M('left_behind','lists copied before conversion (a corrected program)','C27_inputs_unchanged_refuted must fail','match v with PIter ListK _ => w | _ => v end.','v.')
M('left_behind','enums replaced in the inputs','C27_inputs_after','match v with PIter ListK _ => w | _ => v end.','match v with PIter ListK _ | PEnum _ _ => w | _ => v end.')
M('is_gross','only the mission gross mass overwritten (a corrected program)','C27_design_gross_refuted must fail','String.eqb k MISSION_GROSS || String.eqb k DESIGN_GROSS','String.eqb k MISSION_GROSS')
M('save_loop','gross mass in pounds whatever the units','C27_round_trip','PFloat (mission_gross u), u, tag_of v','PFloat (mission_gross "lbm"), u, tag_of v')
M('save_loop','units dropped','C27_round_trip','Ok ((k, (w, u, tag_of v)) :: es)','Ok ((k, (w, "unitless", tag_of v)) :: es)')
M('save_loop','type of the converted value recorded','C27_round_trip','Ok ((k, (w, u, tag_of v)) :: es)','Ok ((k, (w, u, tag_of w)) :: es)')
M('save_loop','entry lost','C27_round_trip','Ok ((k, (w, u, tag_of v)) :: es)','Ok es')
M('save_results','design gross mass always appended','C27_round_trip','if dmem DESIGN_GROSS c then es ','if false then es ')
M('save_results','design gross mass appended when present','C27_round_trip','if dmem DESIGN_GROSS c then es ','if negb (dmem DESIGN_GROSS c) then es ')
M('save_results','appended with mission gross mass','C27_round_trip','PFloat design_gross, "lbm", TagOther','PFloat (mission_gross "lbm"), "lbm", TagOther')
M('is_noise','letters removed too','C27_aviary_enums','Ascii.eqb a ">" || Ascii','Ascii.eqb a "S" || Ascii')
M('is_noise','underscore removed','C27_aviary_enums','Ascii.eqb a ">" || Ascii','Ascii.eqb a "_" || Ascii')
M('clean','text before the first colon','C27_round_trip','List.last (split_on is_colon [] (lit s)) []','List.hd [] (split_on is_colon [] (lit s))')
M('interpret','lists always converted','C27_round_trip','if existsb has_angle l then','if true then')
M('interpret','list of one lost','C27_round_trip','else Ok v\n      | _ => Err TypeError','else Ok (PIter k (tl l))\n      | _ => Err TypeError')
M('interpret','number accepted where a list was recorded (a corrected program)','C27_gross_list_refuted must fail','| _ => Err TypeError                                          (* len() of a number *)','| _ => Ok v')
M('interpret','enum given as bare text','C27_aviary_enums','PStr s => Ok (PIter ListK [of_data (convert (clean s))])','PStr s => Ok (PIter ListK [PInt 0])')
M('read_entry','unknown names kept','C27_unknown_dropped','if dmem (e_name e) md then fst (av_set_val W find_unit md c (e_name e) v (UStr (e_units e))) else c','if dmem (e_name e) md then fst (av_set_val W find_unit md c (e_name e) v (UStr (e_units e))) else dset (e_name e) (v, e_units e) c')
M('read_entry','metadata units taken','C27_round_trip','(UStr (e_units e))','UNone')
M('read_entries','first entry only','C27_round_trip',"(fun c' => read_entries md c' es')","(fun c' => Ok c')")
M('read_entries','last entry first','C27_round_trip for repeated names',"rbind (read_entry md c e) (fun c' => read_entries md c' es')","rbind (read_entries md c es') (fun c' => read_entry md c' e)")
M('reload','missing gross mass tolerated (a corrected program)','C27_reload_refuted must fail','| None => Err KeyError end).','| None => Ok (c, (PNone, "")) end).')
M('reload','design gross mass taken','C27_reload_iff','match dget MISSION_GROSS c with Some it','match dget DESIGN_GROSS c with Some it')
M('aviary_enums','a member named like another value','C27_aviary_enums','("BLENDED_WING_BODY", PStr "BWB")','("BLENDED_WING_BODY", PStr "TRANSPORT")')
M('aviary_enums','a lower-case member name','C27_aviary_enums','("POLAR", PStr "polar")','("polar", PStr "POLAR")')
MUTANTS[2]['tightened'] = ['C27_later_path_refuted']
MUTANTS[7]['tightened'] = ['C27_enum_names']
MUTANTS[23]['tightened'] = ['C27_legacy_enum_text']
