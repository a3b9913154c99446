MUTANTS = []
def M(definition, edit, breaks, old, new, **kw):
    MUTANTS.append(dict(file='MergeModel.v', definition=definition, edit=edit, breaks=breaks, old=old, new=new, **kw))
M('isclose', 'tolerance relative to the first value', 'C10', '(rel_tol * Qabs b)', '(rel_tol * Qabs a)')
M('isclose', 'strict inequality replaced by exact equality', 'C10', 'Qle_bool (Qabs (a - b)) (rel_tol * Qabs b)', 'Qeq_bool a b')
M('allclose', 'arrays of different length truncated', 'C10', '| _, _ => false\n         end.', '| _, _ => forallb (fun p => isclose (fst p) (snd p)) (combine a b)\n         end.')
M('same_keys', 'extra keys on the right accepted', 'C10', 'forallb (fun k => existsb (String.eqb k) (map fst a)) (map fst b).', 'true.')
M('almost_equal', 'only the first entry of a dictionary compared', 'C10', '| Some w => almost_equal v w && go l\'', '| Some w => almost_equal v w')
M('merge2', 'second dictionary wins', 'C10 first wins', 'Ok (d1 ++ filter (fun p => negb (dmem (fst p) d1)) d2)', 'Ok (d2 ++ filter (fun p => negb (dmem (fst p) d2)) d1)')
M('merge2', 'conflicts ignored', 'C10 rejection', '| Some w => almost_equal (snd p) w\n', '| Some w => orb true (almost_equal (snd p) w)\n')
M('merge2', 'unique keys of the second dropped', 'C10 union', 'Ok (d1 ++ filter (fun p => negb (dmem (fst p) d1)) d2)', 'Ok d1')
M('merge_meta_data', 'comparison only with the previous dictionary result dropped', 'C10', 'fold_left (fun acc d => rbind acc (fun m => merge2 m d)) ds (Ok d0)', 'fold_left (fun acc d => rbind acc (fun m => merge2 d0 d)) ds (Ok d0)')
M('compare_node', 'different strings accepted', 'C11', '| Var s, Var t => String.eqb s t', '| Var s, Var t => true')
M('compare_node', 'inner classes not compared', 'C11', '| Some w => compare_node v w && go l\'', '| Some w => match v with Var _ => compare_node v w | _ => true end && go l\'')
M('compare_node', 'clash reported (a corrected program)', 'C11_kind_clash_refuted must fail', '| _, _ => true              (*', '| _, _ => false             (*')
M('merge_into', 'existing variables overwritten', 'C11 (result depends on the order when strings differ; with equal strings equivalent)', '| Some (Var _) => acc                            (* already a variable *)\n                           | _ => dset k (Var s) acc', '| Some (Var _) => ddel k acc\n                           | _ => dset k (Var s) acc', note='variant deletes the variable')
M('merge_into', 'shared classes replaced instead of merged', 'C11 union', 'dset k (Cls (merge_into v ab)) acc', 'dset k (Cls (match v with Cls l => let _ := merge_into v ab in l | Var _ => ab end)) acc')
M('merge_into', 'new classes not added', 'C11 union', '| _ => dset k (Cls lv) acc                      (*', '| _ => acc                      (*')
M('compare_pairs', 'only the first hierarchy compared with the rest', 'C11 rejection', 'hs\' && compare_pairs hs\'', 'hs\'')
M('merge_hierarchies', 'last hierarchy not merged', 'C11 union', 'rbind acc (fun m => merge_two m h)) hs (Ok h0)', 'rbind acc (fun m => merge_two m h)) (removelast hs) (Ok h0)')
M('merge_hierarchies', 'comparison skipped', 'C11 rejection (merge_two still compares with the merged result)', 'if compare_pairs hs then ', 'if orb true (compare_pairs hs) then ', note='merge_two compares each hierarchy with the merged one, which finds every conflict when no kind clash hides it')
M('merge_heap', 'inner classes copied instead of shared for new attributes (a partly corrected program)', 'C11_inputs_unchanged_refuted must fail', '| HRef lb, Some (HRef la) => merge_heap f s la lb', '| HRef lb, Some (HRef la) => s')
