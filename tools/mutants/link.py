MUTANTS = []
def M(definition, edit, breaks, old, new, **kw):
    MUTANTS.append(dict(file='LinkModel.v', definition=definition, edit=edit, breaks=breaks, old=old, new=new, **kw))
M('get_opt','a missing optimize option read as False','C24_links_iff','match dget k d with Some v => v | None => VNone end.','match dget k d with Some v => v | None => VBool false end.')
M('truthy_num','a pin at zero noticed (a corrected program)','C24_pinned_not_linked_refuted must fail','match x with Some q => negb (Qeq_bool q 0) | None => false end','match x with Some q => true | None => false end')
M('truthy','a pair counts as false','C24_links_iff','| VPair _ _ => true end.','| VPair _ _ => false end.')
M('removeprefix_initial','one character too many removed','C24_analytic_iff','substring 8 (String.length s - 8) s','substring 9 (String.length s - 9) s')
M('find_scaling','analytic test inverted','C24_scaling / C24_released_iff','Nat.ltb (List.length (states p1)) 1 in','negb (Nat.ltb (List.length (states p1)) 1) in')
M('find_scaling','time reference of the upstream phase first','C24_scaling','rbind (get_pair (info p2) (var ++ "_initial_ref"))','rbind (get_pair (info p1) (var ++ "_initial_ref"))')
M('find_scaling','zero offset of the wrong phase','C24_scaling','rbind (get_pair (info p2) (var ++ "_ref0")) (fun r0\' => Ok (ru\', fst r0\'))','Ok (ru\', fst r0)')
M('find_scaling','reference and zero offset swapped','C24_scaling','k_ref := fst (fst rr); k_ref0 := snd rr;','k_ref := snd rr; k_ref0 := fst (fst rr);')
M('find_scaling','released in the upstream phase','C24_released_iff','then [AInputInitialFalse (pname p2) var] else []','then [AInputInitialFalse (pname p1) var] else []')
M('find_scaling','released although an optimize option is given','C24_released_iff','if is_None opt2 && negb (String.eqb var "time")','if negb (String.eqb var "time")')
M('find_scaling','time released','C24_released_iff','if is_None opt2 && negb (String.eqb var "time") && mem','if is_None opt2 && mem')
M('direct_key','time looked up under its own name','C24_links_iff','if String.eqb v "time" then "time_initial_direct_link" else','if String.eqb v "time" then "time_direct_link" else')
M('want_connect','default False','C24_links_iff','Some x => truthy x | None => cd end','Some x => truthy x | None => false end')
M('want_connect','MPI ignored','C24_links_iff','  cd && match dget','  match dget')
M('link_common','both optimize options need not be False','C24_links_iff','if is_False opt1 && is_False opt2 then Ok []','if is_False opt1 || is_False opt2 then Ok []')
M('link_common','pins of either side suffice','C24_links_iff','if truthy_num (fst pin1) && truthy_num (fst pin2) then Ok []','if truthy_num (fst pin1) || truthy_num (fst pin2) then Ok []')
M('link_common','initial pin of the upstream phase','C24_links_iff','rbind (get_pair (info p1) (v ++ "_final"))','rbind (get_pair (info p1) (v ++ "_initial"))')
M('link_common','connection although the front is pinned','C24_links_iff','else if truthy_num (fst pin2) then false\n','')
M('link_common','connection although downstream is static','C24_links_iff','          if is_False opt2 then false\n          else if','          if')
M('link_common','upstream static forbids connection','C24_links_iff','          if is_False opt2 then false','          if is_False opt1 then false')
M('link_common','phases swapped in the link','C24_links_iff','[ALink (pname p1) (pname p2) v connect (fst ks)])%list))).','[ALink (pname p2) (pname p1) v connect (fst ks)])%list))).')
M('link_down','constraint for absent source too','C24_analytic_iff','if negb (mem source (lvars p1)) then Ok []','if negb (mem source (lvars p1)) && negb (mem var (lvars p1)) then Ok []')
M('link_down','source and target swapped','C24_analytic_iff','(pname p2) source var connect','(pname p2) var source connect')
M('link_down','direct link option of the analytic name','C24_analytic_iff','let connect := want_connect cd p2 source in','let connect := want_connect cd p2 var in')
M('link_up','already linked quantities linked again','C24_links_iff or C24_once','else if mem var downstream || mem target downstream then Ok []','else if mem var downstream then Ok []')
M('link_up','second start input also linked','C24_links_iff','else if mem var downstream || mem target downstream then Ok []','else if mem target downstream then Ok []')
M('link_up','target is the start input','C24_links_iff','[ALink (pname p1) (pname p2) target connect (fst ks)])%list).','[ALink (pname p1) (pname p2) var connect (fst ks)])%list).')
M('common_vars','all upstream variables','C24_links_iff','sorted (filter (fun v => mem v (lvars p2)) (lvars p1)).','sorted (lvars p1).')
M('opt2_after','option reset for every pair','C24_release_own_option_refuted?','(common_vars p1 p2) opt2.','(common_vars p1 p2) (Some VNone).')
M('link_pair','stale option from before the common loop','C24','let opt2\' := opt2_after p1 p2 opt2 in','let opt2\' := opt2 in')
M('link_pair','downstream loop over the upstream phase','C24_analytic_iff','(sorted (filter startswith_initial (lvars p2)))) (fun b','(sorted (filter startswith_initial (lvars p1)))) (fun b')
M('first_reserve','any reserve phase breaks the chain','C24_links_iff','match reserves with [] => false | r :: _ => String.eqb nm r end.','existsb (String.eqb nm) reserves.')
M('link_rest','the whole chain stops at the reserve','C24_links_iff','then link_rest cd reserves p2 rest\' opt2\n','then Ok []\n')
M('link_rest','reserve phases attached to the last main phase','C24_links_iff','then link_rest cd reserves p2 rest\' opt2\n','then link_rest cd reserves p1 rest\' opt2\n')
M('link_phases','parallel alone forbids connections','C24_links_iff','negb (Nat.ltb 1 comm_size && parallel)','negb parallel')
M('link_phases','two phases not linked','C24_links_iff','if Nat.leb (List.length phases) 1 then','if Nat.leb (List.length phases) 2 then')
