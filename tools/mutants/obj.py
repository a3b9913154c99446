MUTANTS = []
def M(definition, edit, breaks, old, new, **kw):
    MUTANTS.append(dict(file='ObjModel.v', definition=definition, edit=edit, breaks=breaks, old=old, new=new, **kw))
M('parse_arg','unknown model accepted','C25_accepts_iff','if in_groups groups model then Ok (m, output, weight) else Err ValueError','Ok (m, output, weight)')
M('parse_arg','weight and output swapped in a triple','C25_weighted_mean','Ok (m, output, weight) else','Ok (m, weight, output) else')
M('parse_arg','default weight two','C25_weighted_mean','then Ok (f, EStr s, ENum 1) else','then Ok (f, EStr s, ENum 2) else')
M('parse_arg','pair of output and weight needs no check','C25_accepts_iff','if in_groups groups first then Err ValueError else Ok ("model", EStr f, ENum w)','Ok ("model", EStr f, ENum w)')
M('parse_arg','group name accepted as output','C25_accepts_iff','if in_groups groups (EStr s) then Err ValueError else Ok ("model", EStr s, ENum 1)','Ok ("model", EStr s, ENum 1)')
M('parse_arg','malformed argument rejected (a corrected program)','C25_malformed_rejected_refuted must fail','    | SIZING => Ok ("model", EStr OBJECTIVES_FUEL, ENum 1)\n    | OFF_DESIGN_MIN_FUEL => Ok ("model", EStr OBJECTIVES_FUEL, ENum 1)\n    | OFF_DESIGN_MAX_RANGE => Ok ("model", EStr OBJECTIVES_RANGE, ENum 1)\n    | MULTI_MISSION => Err ValueError','    | _ => Err ValueError')
M('parse_arg','range objective replaced by fuel','C25_malformed_replaced','    | OFF_DESIGN_MAX_RANGE => Ok ("model", EStr OBJECTIVES_RANGE, ENum 1)','    | OFF_DESIGN_MAX_RANGE => Ok ("model", EStr OBJECTIVES_FUEL, ENum 1)')
M('parse_args','order reversed','C25_order','Ok (t :: ts)','Ok (ts ++ [t])%list')
M('parse_args','failing arguments skipped','C25_accepts_iff','rbind (parse_arg groups pt a) (fun t => rbind (parse_args groups pt l\') (fun ts => Ok (t :: ts)))','rbind (parse_args groups pt l\') (fun ts => match parse_arg groups pt a with Ok t => Ok (t :: ts) | Err _ => Ok ts end)')
M('clean_output','time is range','C25_names','else if String.eqb s "time" then EStr FINAL_TIME','else if String.eqb s "time" then EStr RANGE')
M('clean_output','fuel_burned not translated','C25_names','if String.eqb s "fuel_burned" then EStr FUEL_MASS\n    else if','if')
M('next_ref','reference also with several objectives','C25_reference','if Nat.eqb nargs 1 then','if Nat.leb 1 nargs then')
M('next_ref','given reference replaced','C25_reference','  | EStr s, None =>\n    if Nat.eqb nargs 1','  | EStr s, _ =>\n    if Nat.eqb nargs 1')
M('next_ref','mass reference positive (a corrected program)','C25_reference','Some (- 50000 # 1)%Q','Some (50000 # 1)%Q')
M('sum_weights','last weight not counted','C25_weighted_mean','| (_, _, ENum w) :: l\' => sum_weights (acc + w)%Q l\'','| [(_, _, ENum w)] => Ok acc\n  | (_, _, ENum w) :: l\' => sum_weights (acc + w)%Q l\'')
M('sum_weights','absolute weights (a corrected program)','C25_direction_refuted must fail','sum_weights (acc + w)%Q','sum_weights (acc + (if Qle_bool 0 w then w else - w))%Q')
M('replace_colon','only the first colon','C25_order','String (if Ascii.eqb c ":" then "_"%char else c) (replace_colon s\')','if Ascii.eqb c ":" then String "_"%char s\' else String c (replace_colon s\')')
M('build_terms','total not passed on','C25_weighted_mean','t_weight := w; t_total := total |}','t_weight := w; t_total := 1 |}')
M('build_terms','connection reversed','C25_order','(model ++ "." ++ output, "composite_function." ++ model ++ "_" ++ safe)','("composite_function." ++ model ++ "_" ++ safe, model ++ "." ++ output)')
M('add_composite_objective','short names kept','C25_names','(fst (fst t), clean_output (snd (fst t)), snd t)','(fst (fst t), snd (fst t), snd t)')
M('eval_terms','term subtracted','C25_weighted_mean','t_weight t / t_total t + v)%Q','t_weight t / t_total t - v)%Q')
M('normalise','not normalised','C25_adv_normalised','Ok (map (fun w => w / qsum l)%Q l)','Ok l')
M('normalise','divided by the number','C25_adv_normalised','Ok (map (fun w => w / qsum l)%Q l)','Ok (map (fun w => w / inject_Z (Z.of_nat (List.length l)))%Q l)')
M('add_composite_objective_adv','weights exchanged','C25_adv_normalised','a_output_weight := snd (snd p); a_mission_weight := snd (fst p)','a_output_weight := snd (fst p); a_mission_weight := snd (snd p)')
M('add_composite_objective_adv','connection the right way round (a corrected program)','C25_adv_direction_refuted must fail','("composite_function." ++ fst (fst p) ++ "_" ++ fst (snd p),\n                       fst (fst p) ++ "." ++ fst (snd p))','(fst (fst p) ++ "." ++ fst (snd p), "composite_function." ++ fst (fst p) ++ "_" ++ fst (snd p))')
M('add_objective','mass reference negative (a corrected program)','C25_same_direction_refuted / C25_objective','if String.eqb s "mass" then Some (50000 # 1)%Q\n  else if String.eqb s "hybrid','if String.eqb s "mass" then Some (- 50000 # 1)%Q\n  else if String.eqb s "hybrid')
M('add_objective','maximum range problem minimises fuel','C25_objective','    | OFF_DESIGN_MAX_RANGE => Ok (OVar OBJECTIVES_RANGE, Some r)','    | OFF_DESIGN_MAX_RANGE => Ok (OVar OBJECTIVES_FUEL, Some r)')
M('add_objective','unknown objective accepted','C25_objective','    else Err ValueError\n  | None =>','    else Ok (OVar s, Some r)\n  | None =>')
M('add_objective','given reference ignored','C25_objective','             | Some q => q\n             | None => match default_ref s with','             | Some _ => 1%Q\n             | None => match default_ref s with')
