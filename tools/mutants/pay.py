MUTANTS = []
def M(definition, edit, breaks, old, new, **kw):
    MUTANTS.append(dict(file='PayModel.v', definition=definition, edit=edit, breaks=breaks, old=old, new=new, **kw))
M('off_design_setup','sizing accepted','C26_off_design_errors','| T_SIZING => Err UserWarning                                              (* L1449-1450 *)\n  | _ =>','| _ =>')
M('off_design_setup','both fills accepted','C26_off_design_errors','if o_fill_cargo a && o_fill_fuel a then Err UserWarning','if o_fill_cargo a && o_fill_fuel a && false then Err UserWarning')
M('off_design_setup','passengers always recomputed','C26_off_design_inputs','           && negb (truthyZ (o_economy a) || truthyZ (o_business a) || truthyZ (o_first a))\n','')
M('off_design_setup','given passengers overwritten','C26_off_design_inputs','if flops && match o_pax a with None => true | Some _ => false end\n           &&','if flops &&')
M('off_design_setup','passengers recomputed for GASP','C26_off_design_inputs','if flops && match o_pax','if match o_pax')
M('off_design_setup','gross mass reduced for maximum range','C26_table_iff','match o_type a with T_MIN_FUEL => (gross * (9 # 10))%Q | _ => gross end','match o_type a with T_MAX_RANGE => (gross * (9 # 10))%Q | _ => gross end')
M('off_design_setup','given gross mass ignored','C26_ferry','match o_gross a with Some g => g | None => s_design_gross s end','s_design_gross s')
M('off_design_setup','GASP without cargo mass gets a bound (a corrected program)','C26_gasp_refuted must fail','| None => Err TypeError                                 (* None * 1.05 *)','| None => Ok []')
M('off_design_setup','wing cargo preferred','C26_table_iff','if zeroQ (o_misc a) then\n               if zeroQ (o_wing a) then','if zeroQ (o_wing a) then\n               if zeroQ (o_misc a) then')
M('off_design_setup','cargo bound below the load','C26_table_iff','Some m => Ok [(DMiscCargo, m * (11 # 10))%Q]','Some m => Ok [(DMiscCargo, m * (9 # 10))%Q]')
M('off_design_setup','cargo not passed','C26_off_design_inputs','i_pax := pax; i_cargo := o_cargo a;','i_pax := pax; i_cargo := None;')
M('off_design_setup','fuel filled in every mission','C26_table_iff','(if o_fill_fuel a then [(DGrossMass, s_design_gross s)] else [])','[(DGrossMass, s_design_gross s)]')
M('off_design_setup','ferry bound is the take-off mass of the request (a corrected program)','C26_ferry_bound_refuted must fail','[(DGrossMass, s_design_gross s)]','[(DGrossMass, gross)]')
M('trunc','rounded up','C26_load','Z.quot (Qnum q) (Zpos (Qden q)).','(Z.quot (Qnum q) (Zpos (Qden q)) + 1)%Z.')
M('trunc','floor instead of truncation','C26_table_iff (negative numbers)','Z.quot (Qnum q) (Zpos (Qden q)).','(Qnum q / Zpos (Qden q))%Z.')
M('point3_args','business class not reduced','C26_load','o_business := Some (trunc (s_business s * frac))','o_business := Some (trunc (s_business s))')
M('point3_args','misc cargo not reduced','C26_load','o_misc := Some (s_misc s * frac)%Q;\n     o_cargo := None; o_gross := None; o_fill_cargo','o_misc := Some (s_misc s)%Q;\n     o_cargo := None; o_gross := None; o_fill_cargo')
M('point3_args','classes exchanged','C26_table_iff','o_economy := Some (trunc (s_economy s * frac));','o_economy := Some (trunc (s_first s * frac));')
M('point3_args','cargo not free','C26_table_iff','o_gross := None; o_fill_cargo := true; o_fill_fuel := false','o_gross := None; o_fill_cargo := false; o_fill_fuel := false')
M('ferry_args','ferry with cargo','C26_table_iff','o_wing := Some 0%Q; o_misc := Some 0%Q;\n     o_cargo := match','o_wing := Some 0%Q; o_misc := Some (s_misc s)%Q;\n     o_cargo := match')
M('ferry_args','cargo mass zeroed for FLOPS too','C26_table_iff','GASP => Some 0%Q | FLOPS => None end','GASP => Some 0%Q | FLOPS => Some 0%Q end')
M('ferry_args','ferry gross mass not passed','C26_ferry_gross','o_gross := Some gross; o_fill_cargo := false','o_gross := None; o_fill_cargo := false')
M('run_payload_range','unconverged declined also when quiet (a corrected program)','C26_unconverged_declined_refuted must fail','if negb (s_success s) && negb quiet then','if negb (s_success s) then')
M('run_payload_range','multi-mission accepted','C26_declined_iff','else if s_multi_mission s && negb quiet then (Ok ANothing, s_cruise s)','else if s_multi_mission s && negb quiet && false then (Ok ANothing, s_cruise s)')
M('run_payload_range','missing cruise tolerated (a corrected program)','C26_no_cruise','| None => (Err KeyError, None) ','| None => (Ok ANone, None) ')
M('run_payload_range','upper bound tripled','C26_cruise_after','Some (lo, hi) => Some (Some (lo, 2 * hi)%Q)','Some (lo, hi) => Some (Some (lo, 3 * hi)%Q)')
M('run_payload_range','lower bound doubled','C26_cruise_after','Some (lo, hi) => Some (Some (lo, 2 * hi)%Q)','Some (lo, hi) => Some (Some (2 * lo, 2 * hi)%Q)')
M('run_payload_range','original bounds restored (a corrected program)','C26_original_unchanged_refuted must fail','(* L1864-1868 *)\n       cruise)','(* L1864-1868 *)\n       s_cruise s)')
M('run_payload_range','unusable fuel counted as usable','C26','let usable := (s_capacity s - s_unusable s)%Q in','let usable := s_capacity s in')
M('run_payload_range','room test not strict','C26_tank_limited','Qle_bool (s_gross s) (s_operating s + usable) in','negb (Qle_bool (s_operating s + usable) (s_gross s)) in')
M('run_payload_range','ferry fuel not limited by take-off mass','C26_tank_limited','if room then Ok (None, (s_gross s - s_operating s)%Q)','if room then Ok (None, usable)')
M('run_payload_range','payload fraction of the gross mass','C26_table_iff','((s_gross s - s_operating s - usable) / s_payload s)))','((s_gross s - s_operating s - usable) / s_gross s)))')
M('run_payload_range','skipped point taken from the ferry mission (a corrected program)','C26_skipped_point_refuted must fail','| None => Err UnboundLocalError                               (* fuel_3 *)','| None => Ok (ATable [{| p_payload := s_payload s; p_fuel := 0; p_range := 0 |};\n                             {| p_payload := s_payload s; p_fuel := s_fuel s; p_range := s_range s |};\n                             {| p_payload := r_payload r4; p_fuel := r_fuel r4; p_range := r_range r4 |};\n                             {| p_payload := r_payload r4; p_fuel := r_fuel r4; p_range := r_range r4 |}])')
M('run_payload_range','table written although mission 3 failed','C26_table_iff','if r_success r4 && ok3 then','if r_success r4 then')
M('run_payload_range','range and fuel exchanged in the table','C26_table_iff','p_fuel := s_fuel s; p_range := s_range s |};','p_fuel := s_range s; p_range := s_fuel s |};')
M('run_payload_range','points 3 and 4 exchanged','C26_table_iff','{| p_payload := r_payload r3; p_fuel := r_fuel r3; p_range := r_range r3 |};\n                             {| p_payload := r_payload r4; p_fuel := r_fuel r4; p_range := r_range r4 |}])','{| p_payload := r_payload r4; p_fuel := r_fuel r4; p_range := r_range r4 |};\n                             {| p_payload := r_payload r3; p_fuel := r_fuel r3; p_range := r_range r3 |}])')
