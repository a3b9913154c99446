MUTANTS = []
def M(definition, edit, breaks, old, new, **kw):
    MUTANTS.append(dict(file='DeckModel.v', definition=definition, edit=edit, breaks=breaks, old=old, new=new, **kw))
M('read_data','torque taken for an engine variable','C18','Some _ => negb (var_beq v TORQUE)','Some _ => true')
M('net_thrust','comparison the right way round (a corrected program)','C18_accepts_iff and inverted must fail','existsb (fun x => Qltb x tol) r then Err','existsb (fun x => Qltb tol x) r then Err')
M('net_thrust','net thrust overwritten although given','C18_accepted_columns','      else Ok d\n    else Ok (put_col THRUST net d)','      else Ok (put_col THRUST net d)\n    else Ok (put_col THRUST net d)')
M('net_thrust','ram minus gross','C18_accepted_columns','zip2 Qminus (col d GROSS_THRUST) (col d RAM_DRAG)','zip2 Qminus (col d RAM_DRAG) (col d GROSS_THRUST)')
M('net_thrust','gross thrust alone is enough','C18','if ev d RAM_DRAG && ev d GROSS_THRUST then','if ev d RAM_DRAG || ev d GROSS_THRUST then')
M('tailpipe','tailpipe thrust subtracted','C18_accepted_columns','zip2 Qplus (col d THRUST) (col d TAILPIPE_THRUST)','zip2 Qminus (col d THRUST) (col d TAILPIPE_THRUST)')
M('tailpipe','tailpipe thrust ignored without net thrust','C18','else put_col THRUST (col d TAILPIPE_THRUST) d\n','else d\n')
M('shaft','corrected shaft power always dropped','C18','if ev d SHAFT_POWER && ev d SHAFT_POWER_CORRECTED && (1 <=? verbosity)','if ev d SHAFT_POWER_CORRECTED && (1 <=? verbosity)')
M('check_required','raises when something is missing (a corrected program)','C18_mandatory_columns_refuted must fail','       | _ => Ok d\n       end.','       | _ => Err UserWarning\n       end.')
M('check_required','never raises','C18_accepts_iff','       | [] => Err UserWarning\n       | _ => Ok d','       | [] => Ok d\n       | _ => Ok d')
M('drop_negative','only columns with data indexed (a corrected program)','C18_ignore_negative_thrust_fails must fail','| Some c => existsb (fun i => length c <=? i) idx','| Some c => match c with [] => false | _ => existsb (fun i => length c <=? i) idx end')
M('fill_unused','unused columns left empty','C18_accepted_columns','match c with [] => repeat 0%Q n | _ => c end','c')
M('fill_unused','all columns zeroed','C18_accepted_columns','match c with [] => repeat 0%Q n | _ => c end','repeat 0%Q n')
M('check_data','tailpipe column not removed','C18','pop_col TAILPIPE_THRUST (pop_col GROSS_THRUST','(pop_col GROSS_THRUST')
M('count_row','index one too large for repeated rows','C19','(alt_count s - 1) (data_count s);','(alt_count s - 1) (data_count s + 1);')
M('count_row','maximum number of rows not updated at a new altitude','C19','alt_count := alt_count s + 1; max_alt_count := max_alt_count s;\n              data_count := 1; max_data_count := Nat.max (max_data_count s) (data_count s)','alt_count := alt_count s + 1; max_alt_count := max_alt_count s;\n              data_count := 1; max_data_count := max_data_count s')
M('count_row','maximum number of altitudes not updated','C19','max_alt_count := Nat.max (max_alt_count s) (alt_count s);','max_alt_count := max_alt_count s;')
M('count_row','row counter not reset at a new Mach number','C19','            data_count := 1; max_data_count := Nat.max (max_data_count s) (data_count s);\n            data_indices := set_at (data_indices s) (mach_count s + 1 - 1)','            data_count := data_count s; max_data_count := Nat.max (max_data_count s) (data_count s);\n            data_indices := set_at (data_indices s) (mach_count s + 1 - 1)')
M('count_row','altitude counter not reset','C19','Ok {| mach_count := mach_count s + 1; alt_count := 1;','Ok {| mach_count := mach_count s + 1; alt_count := alt_count s;')
M('count_row','single-altitude test off by one','C19_single_altitude_rejected','by_mach && (alt_count s <? 2)','by_mach && (alt_count s <? 1)')
M('count_row','single-altitude test too strict','C19_pack','by_mach && (alt_count s <? 2)','by_mach && (alt_count s <? 3)')
M('count_row','new altitude compared with first altitude of the Mach number','C19','current := set_current s r true |}','current := current s |}')
M('count_row','index of a first row zero (one row, index 0)','C19','(alt_count s + 1 - 1) 1;','(alt_count s + 1 - 1) 0;')
M('put_rows','index error ignored','C19_pack','if dmax <=? D then Err IndexError','if dmax <=? D then Ok ([], rows)')
M('put_rows','index error one too early','C19_pack','if dmax <=? D then','if dmax <=? S D then')
M('put_rows','altitude and Mach swapped','C19_pack','Ok (((M, A, D), r) :: w, rest)','Ok (((A, M, D), r) :: w, rest)')
M('fill','number of rows equal to index (a corrected count elsewhere)','C19_pack','put_rows dmax M A 0 (di M A + 1) rows','put_rows dmax M A 0 (di M A) rows')
M('fill','every cell starts from the first row','C19_pack','rbind (fill di dmax cells\' rest)','rbind (fill di dmax cells\' rows)')
M('cells','altitude outermost','C19_pack','list_prod (seq 0 mmax) (seq 0 amax)','map (fun \'(a, m) => (m, a)) (list_prod (seq 0 amax) (seq 0 mmax))')
M('cells','last Mach number left out','C19_pack','list_prod (seq 0 mmax) (seq 0 amax)','list_prod (seq 0 (mmax - 1)) (seq 0 amax)')
M('isclose','relative tolerance dropped and strict','C19_sorted_deck_splits','Qle_bool (Qabs (a - b)) (Qmax (rel * Qmax (Qabs a) (Qabs b)) t)','negb (Qle_bool t (Qabs (a - b)))')
M('normalize','minimum not subtracted','C20_normalize','map (fun x => ndiv (x - lo) (hi - lo)) l','map (fun x => ndiv x (hi - lo)) l')
M('normalize','divided by maximum','C20_normalize','map (fun x => ndiv (x - lo) (hi - lo)) l','map (fun x => ndiv (x - lo) hi) l')
M('normalize','reversed','C20_normalize','map (fun x => ndiv (x - lo) (hi - lo)) l','map (fun x => ndiv (hi - x) (hi - lo)) l')
M('qmin','first entry taken for the minimum','C20_normalize','fold_left Qmin l\' x end','x end')
M('hybrid_norm','negative part not shifted','C20_hybrid','option_map (fun y => y - 1)%Q','option_map (fun y => y)%Q')
M('hybrid_norm','one scale for both signs','C20_hybrid','ndiv (x - 0) (qmax pos - 0)','ndiv (x - 0) (qmax pos - qmin neg)')
M('hybrid_norm','zero treated as positive','C20_hybrid','Some x => if Qltb 0 x then ndiv (x - 0) (qmax pos - 0) else Some x','Some x => if Qle_bool 0 x then ndiv (x - 0) (qmax pos - 0) else Some x')
M('normalize_local','whole cell row normalised with padding','C20_local','seq 0 (Nat.min (data_indices s M A + 1) (max_data_count s))','seq 0 (max_data_count s)')
M('normalize_local','last row of each condition dropped','C20_local','seq 0 (Nat.min (data_indices s M A + 1) (max_data_count s))','seq 0 (Nat.min (data_indices s M A) (max_data_count s))')
M('is_sls','any altitude','C21','Qle_bool (r_alt r) alt_tol &&','Qle_bool alt_tol alt_tol &&', expect='statement uses is_sls; witness')
M('set_reference_thrust','smallest thrust','C21_consistent','Ok (qmax (map r_thrust l))','Ok (qmin (map r_thrust l))')
M('set_reference_thrust','reference recomputed although given','C21_consistent','| Some r => Ok r\n','| Some r => Ok (qmax (map r_thrust rows))\n')
M('set_reference_thrust','conflict accepted','C21_accepts_iff','if thrust_close s (ref * f) then Ok','if thrust_close s s then Ok')
M('set_reference_thrust','scaled thrust kept inconsistent (no silent change)','C21_consistent','if thrust_close s (ref * f) then Ok (ref, ref * f, f)%Q','if thrust_close s (ref * f) then Ok (ref, s, f)%Q')
M('set_reference_thrust','factor inverted','C21_consistent','else Ok (ref, s, s / ref)%Q','else Ok (ref, s, ref / s)%Q')
M('set_reference_thrust','default factor 0','C21_consistent','Ok (ref, ref, 1)%Q','Ok (ref, ref, 0)%Q')
M('thrust_close','absolute tolerance 1','C21_accepts_iff','isclose (1 # 10000) (1 # 10) a b','isclose (1 # 10000) 1 a b')
