MUTANTS = []
def M(definition, edit, breaks, old, new, **kw):
    MUTANTS.append(dict(file='MissionModel.v', definition=definition, edit=edit, breaks=breaks, old=old, new=new, **kw))
M('split_main', 'late main phase not flagged', 'C22 rejection', 'raise_error := if start_reserve st then true else raise_error st;', 'raise_error := raise_error st;')
M('split_main', 'main phases prepended', 'C22 order', 'mains := mains st ++ [nm]; reserves', 'mains := nm :: mains st; reserves')
M('split_reserve', 'a reserve phase does not start the reserve mission', 'C22 rejection', '{| start_reserve := true; raise_error := raise_error st;', '{| start_reserve := start_reserve st; raise_error := raise_error st;')
M('split_step', 'truthiness instead of identity with False', 'C22 split of falsy flags', '| Some (Some PFalse) => split_main st (fst p)\n', '| Some (Some PFalse) | Some (Some (POther 0)) => split_main st (fst p)\n')
M('split_step', 'phases without options counted as main', 'C22 only phases with options', '| None => st\n', '| None => split_main st (fst p)\n')
M('split_step', 'default is reserve', 'C22 split', '| Some None => split_main st (fst p)', '| Some None => split_reserve st (fst p)')
M('separate_reserve_phases', 'lists swapped', 'C22 result', 'Ok (mains st, reserves st)', 'Ok (reserves st, mains st)')
M('post_mission_bus', 'first main phase used', 'C23 last main phase', 'dset (last main m0) {|', 'dset m0 {|')
M('post_mission_bus', 'margin target always connected', 'C23 connections', '(if margin_on then [TMarginFinal] else [])', '(if margin_on then [TMarginFinal] else [TMarginFinal])')
M('post_mission_bus', 'initial mass taken at the end of the phase', 'C23/C28', 'post_names := [TReserveInitial]; src_index := 0%Z', 'post_names := [TReserveInitial]; src_index := (-1)%Z')
M('post_mission_bus', 'final mass taken from the first reserve phase', 'C23/C28', 'Ok (dset (last rsv r0) {|', 'Ok (dset r0 {|')
M('post_mission_bus', 'the two assignments merged when the phase is the same (a correct program)', 'C23_single_reserve_phase_refuted must fail', 'post_names := [TReserveFinal]; src_index := (-1)%Z |} b1)', 'post_names := match rsv with [_] => [TReserveInitial; TReserveFinal] | _ => [TReserveFinal] end; src_index := (-1)%Z |} b1)')
M('fuel_group', 'margin applied to mission mass not fuel', 'C28', 'margin x / 100 * (gross_mass x - inp TMarginFinal)', 'margin x / 100 * (inp TMarginFinal)')
M('fuel_group', 'margin as a fraction', 'C28', 'margin x / 100 *', 'margin x *')
M('fuel_group', 'additional reserve forgotten', 'C28', 'mmass + additional x + rburned', 'mmass + rburned')
M('fuel_group', 'residual sign of reserve', 'C28', 'total_fuel x - burned - total;', 'total_fuel x - burned + total;')
M('fuel_group', 'unusable fuel ignored', 'C28', 'max_capacity x - unusable x - total_fuel x', 'max_capacity x - total_fuel x')
M('fuel_group', 'block fuel subtracts taxi-in', 'C28', 'burned + taxi_in x', 'burned - taxi_in x')
M('fuel_group', 'reserve fuel counted although no reserve phases', 'C28', 'else 0 in    (*', 'else 1 in    (*')
M('pick', 'negative index clamps to zero', 'C28', '(n + i)%Z else i', '0%Z else i')
M('input_value', 'default always used', 'C28', 'Some v => v | None => dflt end', 'Some v => dflt | None => dflt end')
M('run_fuel', 'no main phase accepted silently', 'setup error', '  | [] => Err ValueError                                                    (* L37-44 *)', '  | [] => Err IndexError', tightened=['C28_bad_missions_rejected'], note='first run: survived')
M('capacity_feasible', 'constraint sign', 'C28 capacity', '(0 <= excess_capacity o)%R', '(excess_capacity o <= 0)%R', tightened=['C28_feasible_fuel_fits'], note='first run: survived')
