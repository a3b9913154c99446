MUTANTS = []
def M(definition, edit, breaks, old, new, **kw):
    MUTANTS.append(dict(file='PreModel.v', definition=definition, edit=edit, breaks=breaks, old=old, new=new, **kw))
M('preprocess_fuel_capacities','count test uses 2','C13','(length (given c) =? 3) &&','(length (given c) =? 2) &&')
M('preprocess_fuel_capacities','strict instead of weak upper bound dropped','C13','(length (given c) <? 3) && negb (Qle_bool (qsum (given c)) t)','(length (given c) <? 3) && Qle_bool t (qsum (given c))')
M('preprocess_fuel_capacities','partial capacities never checked','C13','(length (given c) <? 3) &&','(length (given c) <? 0) &&')
M('preprocess_fuel_capacities','auxiliary capacity overwritten','C13','fc_aux := Some (odflt 0%Q (fc_aux c))','fc_aux := Some 0%Q')
M('given','fuselage tank forgotten in the sum','C13','[fc_wing c; fc_fus c; fc_aux c]','[fc_wing c; fc_wing c; fc_aux c]')
M('provided','economy class does not count as provided','C14','isSome (business p) || isSome (economy p)','isSome (business p)')
M('class_sum','business class omitted','C14','(first\' p + business\' p + economy\' p)','(first\' p + economy\' p)')
M('resolve','total trusted over non-zero classes','C14','{| total\' := class_sum p; first\' := first\' p','{| total\' := total\' p; first\' := first\' p')
M('resolve','economy not filled','C14','business\' := business\' p; economy\' := total\' p |}','business\' := business\' p; economy\' := economy\' p |}')
M('preprocess_pax_flops','design not copied from mission','C14','if mp && negb dp then fill m else fill d','fill d')
M('preprocess_pax_flops','mission overwritten by design when both given','C14','if dp && negb mp then fill d else fill m','if dp then fill d else fill m')
M('preprocess_pax_flops','design override reported (a corrected program)','C14_reports / refuted must fail','then at_least v 2 W_design_economy\n         else [])','then at_least v 2 W_design_economy\n         else when (isSome (total d)) (at_least v 1 W_design_total_overridden))')
M('preprocess_pax_flops','overbooking compared the wrong way','C14','when (total\' d2 <? total\' m2)%Z','when (total\' m2 <? total\' d2)%Z')
M('preprocess_pax_flops','business overbooking compared with first class','C14','when (business\' d2 <? business\' m2)%Z','when (first\' d2 <? business\' m2)%Z')
M('preprocess_pax_gasp','mission total kept zero','C14','if dp && negb mp then total d else total m','total m')
M('cargo_assume','cargo only: design and max left zero','C14','| Some f, None, None => {| flown\' := f; max\' := f; des\' := f |}','| Some f, None, None => {| flown\' := f; max\' := 0; des\' := 0 |}')
M('cargo_assume','sizing correction applied always','C14','if sizing && negb (Qeq_bool f d) then d else f','d')
M('cargo_assume','flown assumed equal to design when absent (a corrected program)','C14_sizing_cargo_equal_refuted must fail','| None, None, Some d => {| flown\' := 0;','| None, None, Some d => {| flown\' := d;')
M('preprocess_cargo','design limit not checked','C14','if negb (Qle_bool (des\' o) (max\' o)) then','if negb (Qle_bool (des\' o) (des\' o)) then')
M('attendants_for','50 instead of 51','C15','(pax <? 51)','(pax <? 50)')
M('attendants_for','one fewer attendant','C15','pax / 40 + 1','pax / 40')
M('attendants_for','one per 50','C15 ratios','pax / 40 + 1','pax / 50 + 1')
M('galley_for','threshold 250','C15','if (150 <? pax)%Z','if (250 <? pax)%Z')
M('flight_crew_for','third pilot from 150','C15','(pax <? 151)','(pax <? 150)')
M('keep_nonneg','zero treated as absent','C15','if (n <? 0)%Z then z','if (n <=? 0)%Z then z')
M('preprocess_crew','given cabin crew kept','C15','else Some (a + g)%Z','else Some n')
M('preprocess_crew','flight crew recomputed','C15','flight_crew := Some (odflt (flight_crew_for design_pax) (flight_crew c))','flight_crew := Some (flight_crew_for design_pax)')
M('baggage_for','900 and 2900 swapped','C15','if Qle_bool r 900 then 35 else if Qle_bool r 2900 then 40','if Qle_bool r 2900 then 40 else if Qle_bool r 900 then 35')
M('reconcile','single unmounted engine put on the fuselage (a corrected program)','C16_counts_consistent_iff / refuted must fail','(u =? 1)%Z && negb (w =? 0)%Z','(u =? 1)%Z')
M('reconcile','no mounts: all engines on the fuselage','C16','if (1 <? n)%Z then (n, f, n) else (n, n, w)','(n, n, w)')
M('reconcile','total not raised','C16','((f + w)%Z, f, w)','(n, f, w)')
M('reconcile','unspecified replaces instead of adds','C16','(n, f, (w + u)%Z)','(n, f, u)')
M('reconcile_all','vectors shifted','C16','reconcile_all k\' n\' f\' w\')','reconcile_all k\' n\' f\' w)')
M('preprocess_engine_counts','totals swapped','C16','zsum (map (fun t => snd (fst t)) r), zsum (map snd r)','zsum (map snd r), zsum (map (fun t => fst (fst t)) r)')
M('contribution','aircraft value beats the engine model','C17','    match own with\n    | Some v => match v with','    match (match av with None => own | _ => None end) with\n    | Some v => match v with')
M('contribution','entry zero used for every engine','C17','match nth_error l i with                            (* L842','match nth_error l 0 with                            (* L842')
M('contribution','whole list for every engine','C17','else match nth_error l i with','else if true then map PS l else match nth_error l i with')
M('contribution','multi-dimensional own list nested','C17','if multi then map PS l else [v]','[v]')
M('assemble','index not advanced','C17','assemble multi dflt av (S i) r','assemble multi dflt av i r')
M('vectorise','only the first entry stored','C17','Some s => Ok (Arr s)','Some s => Ok (Arr (firstn 1 s))')
