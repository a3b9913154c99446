MUTANTS = []
def M(definition, edit, breaks, old, new, file='CruiseModel.v', **kw):
    MUTANTS.append(dict(file=file, definition=definition, edit=edit, breaks=breaks, old=old, new=new, **kw))
def E(*a, **kw):
    M(*a, file='EngModel.v', **kw)
M('breguet_drange','factor at the start of the segment only, partials unchanged','C42_RangeComp','(breguet_factor e j + breguet_factor e (S j)) / 2 * breguet_star e j.','breguet_factor e j * breguet_star e j.')
M('breguet_star','log of the inverse mass ratio','C42_range_increases','ln (1 / (1 - (W1 - W2) / W1)).','ln (1 - (W1 - W2) / W1).')
M('breguet_factor','speed in feet per second not converted (consistent everywhere)','C42_breguet_formula','e v_TAS_cruise k * W * 3600 / FF.','e v_TAS_cruise k * W / FF.')
M('cruise_run','initial range forgotten after the first node','C42_RangeComp','S j => r0 + vsum (S j) (d e)','S j => vsum (S j) (d e)')
M('cruise_run','running sum off by one','C42_additive','S j => r0 + vsum (S j) (d e)','S j => r0 + vsum j (d e)')
M('cruise_run','time is the sum of the segment times (a corrected program)','C42_cruise_time_refuted must fail','t0 + vsum (S j) (d e) / mean_speed e j end.','t0 + vsum (S j) (fun m => d e m / mean_speed e m) end.')
M('cruise_jac','time partial of the speed misses the quotient term','C42_RangeComp','(df_du k l * g - dg_du k l * f) / g ^ 2','df_du k l / g')
M('cruise_jac','time partial not divided by the mean speed','C42_RangeComp','k l / mean_speed e j\n','k l\n')
M('cruise_jac','range partial without the sum over earlier segments','C42_RangeComp','else lower (matmul nn tri (two_diagonals (first e i) (second e i))) k l\n  else','else lower (two_diagonals (first e i) (second e i)) k l\n  else')
M('breguet_first','fuel partial with the wrong sign','C42_RangeComp','if String.eqb i v_FUEL then vx_1 * W1 * 3600 / FF_1 ^ 2 / 2 * star','if String.eqb i v_FUEL then - vx_1 * W1 * 3600 / FF_1 ^ 2 / 2 * star')
M('breguet_first','mass partial without the logarithm term','C42_RangeComp','(vx_1 * 3600 / FF_1 / 2 * star + bregA * (1 / W1)) *','(vx_1 * 3600 / FF_1 / 2 * star) *')
M('breguet_second','mass partial with the sign of the first node','C42_RangeComp','bregA * (- (1) / W2)','bregA * (1 / W2)')
M('breguet_second','speed partial not halved','C42_RangeComp','else W2 * 3600 / FF_2 / 2 * star.','else W2 * 3600 / FF_2 * star.')
M('electric_drange','factors exchanged','C42_ElectricRangeComp','electric_factor e (S j) - electric_factor e j.','electric_factor e j - electric_factor e (S j).')
M('electric_factor','power not squared away (consistent output change)','C42_electric_telescopes','e v_TAS_cruise k * e v_ENERGY k * 3600 / e v_POWER k.','e v_TAS_cruise k * e v_ENERGY k * 3600 * e v_POWER k.')
M('electric_first','power partial sign','C42_ElectricRangeComp','if String.eqb i v_POWER then - (- vx_1 * E_1','if String.eqb i v_POWER then (- vx_1 * E_1')
M('electric_second','energy partial with the speed of the first node','C42_ElectricRangeComp','let vx_2 := e v_TAS_cruise (S j) in\n  let E_2','let vx_2 := e v_TAS_cruise j in\n  let E_2')
M('DistanceComp','initial distance declared for all nodes (a corrected program)','C42_DistanceComp_refuted must fail','sparse 1 (fun _ => 0%nat) (fun _ => 0%nat) (fun _ => 1) k l','sparse nn (fun q => q) (fun _ => 0%nat) (fun _ => 1) k l')
M('DistanceComp','first column of the time partials forgotten','C42_DistanceComp','sparse (nn + (nn - 1)) (fun p','sparse nn (fun p')
M('DistanceComp','diagonal of the time partials not zeroed at node 0','C42_DistanceComp','if Nat.eqb p 0 then 0 else if Nat.ltb p nn','if Nat.ltb p nn')
M('DistanceComp','time since the phase start not subtracted','C42_DistanceComp','e v_TAS_cruise k * (e v_time k - e v_time 0%nat);','e v_TAS_cruise k * e v_time k;')
M('SpeedConstraints','Mach rows at even positions','C42_SpeedConstraints','(fun q => (q * 2 + 1)%nat) (fun q => q) (fun _ => EAS_target)','(fun q => (q * 2)%nat) (fun q => q) (fun _ => EAS_target)')
M('SpeedConstraints','Mach scale missing in the partial','C42_SpeedConstraints','(fun q => q) (fun _ => EAS_target) p l','(fun q => q) (fun _ => 1) p l')
M('fit_residual','residual of the error, not of its square by coefficient','C54_least_squares','2 * (cubic_at A (X j) - Y j) * X j ^ p).','2 * (cubic_at A (X j) - Y j)).')
M('fit_residual','power of the abscissa off by one','C54_least_squares','* X j ^ p).','* X j ^ S p).')
E('EngineScaling','Mach factor exchanged','C33_fuel','if leb 1 mach then supersonic_fuel_factor p else subsonic_fuel_factor p.','if leb 1 mach then subsonic_fuel_factor p else supersonic_fuel_factor p.')
E('EngineScaling','no supersonic factor (a corrected program)','C33_mach_one_refuted must fail','if leb 1 mach then supersonic_fuel_factor p else subsonic_fuel_factor p.','subsonic_fuel_factor p.')
E('EngineScaling','fuel flow positive','C33_EngineScaling','- (e (unscaled v_FUEL_FLOW) k * (sf * mach','(e (unscaled v_FUEL_FLOW) k * (sf * mach')
E('EngineScaling','derivative of the scaling equation forgets the linear term','C33_EngineScaling','- 2 * linear_fuel_term p * sf)','- linear_fuel_term p * sf)')
E('EngineScaling','fuel partial by the fuel flow without scale factor','C33_EngineScaling','- sf * mach_scaling p (e v_MACH q) * equation_scaling p sf) k l','- mach_scaling p (e v_MACH q) * equation_scaling p sf) k l')
E('EngineScaling','maximum variables not scaled','C33_scales','Some _ => [(String.append x "_max", unscaled (String.append x "_max"))]','Some _ => []')
E('EngineScaling','throttle scaled too','C33_scales (skip list)','[v_MACH; "altitude"; v_THROTTLE; "hybrid_throttle"; "t4"].','[v_MACH; "altitude"; "hybrid_throttle"; "t4"].')
E('EngineScaling','rotational speed not scaled (a corrected program)','C33_shaft_power_relation must fail','[v_MACH; "altitude"; v_THROTTLE; "hybrid_throttle"; "t4"].','[v_MACH; "altitude"; v_THROTTLE; "hybrid_throttle"; "t4"; v_RPM].')
E('EngineScaling','scale factor column declared on the diagonal','C33_EngineScaling','sparse nn r c (fun q => e j q) k l','sparse nn r r (fun q => e j q) k l')
E('SizeEngine','partials exchanged','C33_SizeEngine','if String.eqb i v_SCALE_FACTOR then e v_REFERENCE_SLS_THRUST 0%nat\n    else if String.eqb i v_REFERENCE_SLS_THRUST then e v_SCALE_FACTOR 0%nat else 0','if String.eqb i v_SCALE_FACTOR then e v_SCALE_FACTOR 0%nat\n    else if String.eqb i v_REFERENCE_SLS_THRUST then e v_REFERENCE_SLS_THRUST 0%nat else 0')
E('SizeEngine','thrust divided by the factor','C33_sizing_agrees','v_run := fun e o k => e v_SCALE_FACTOR 0%nat * e v_REF','v_run := fun e o k => / e v_SCALE_FACTOR 0%nat * e v_REF')
E('ThrottleAllocator','last engine gets the full throttle','C39_conserves','else e v_aggregate k * (1 - sum_alloc dynamic ne e k)','else e v_aggregate k')
E('ThrottleAllocator','sum over all nodes in the dynamic mode','C39_conserves','vsum (ne - 1) (fun j => e v_allocations (allocation_at dynamic ne k j)).','vsum (ne - 1) (fun j => e v_allocations (0 * allocation_at dynamic ne k j + j)%nat).')
E('ThrottleAllocator','last row of the mask positive','C39_ThrottleAllocator','if Nat.eqb r c then 1 else 0 else - (1).','if Nat.eqb r c then 1 else 0 else 1.')
E('ThrottleAllocator','row offset by the number of allocations','C39_ThrottleAllocator','(np_tile rows (ne * b) q + ne * np_repeat','(np_tile rows (ne * b) q + b * np_repeat')
E('ThrottleAllocator','column offset by the number of engines','C39_ThrottleAllocator','(np_tile cols (ne * b) q + b * np_repeat','(np_tile cols (ne * b) q + ne * np_repeat')
E('ThrottleAllocator','rows tiled instead of repeated','C39_ThrottleAllocator','let rows := np_repeat (fun r => r) b in','let rows := np_tile (fun r => r) b in')
E('ThrottleAllocator','aggregate columns tiled','C39_ThrottleAllocator','(np_repeat (fun k => k) ne) allocs p l','(np_tile (fun k => k) ne) allocs p l')
E('ThrottleAllocator','aggregate partial of the last engine is the sum','C39_ThrottleAllocator','else 1 - sum_alloc dynamic ne e k in','else sum_alloc dynamic ne e k in')
E('ThrottleAllocator','sum partial by column','C39_ThrottleAllocator','sparse (nn * b) (np_repeat (fun k => k) b) (fun q => q) (fun _ => 1) p l','sparse (nn * b) (np_tile (fun k => k) b) (fun q => q) (fun _ => 1) p l')
E('PropulsionSum','engine counts repeated instead of tiled','C39_PropulsionSum','(np_tile num_engines ne) k l else 0','(np_repeat num_engines nn) k l else 0')
E('PropulsionSum','engine counts ignored','C39_sum_of_engines','vsum ne (fun j => e i (k * ne + j)%nat * num_engines j)\n    | None','vsum ne (fun j => e i (k * ne + j)%nat * (0 * num_engines j + 1))\n    | None')
E('PropulsionSum','array read by columns','C39_sum_of_engines','e i (k * ne + j)%nat * num_engines j)\n    | None','e i (j * ne + k)%nat * num_engines j)\n    | None')
E('PropulsionSum','maximum thrust summed into the net thrust','C39_sum_of_engines','("thrust_net_total", v_THRUST)','("thrust_net_total", "thrust_net_max")')
E('PropulsionSumPre','constant partial of one','C39_PropulsionSumPre','if String.eqb i v_SCALED_SLS_THRUST then num_engines l else 0','if String.eqb i v_SCALED_SLS_THRUST then 1 else 0')
