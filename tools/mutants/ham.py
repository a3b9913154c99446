MUTANTS = []
def M(definition, edit, breaks, old, new, file='HamModel.v', **kw):
    MUTANTS.append(dict(file=file, definition=definition, edit=edit, breaks=breaks, old=old, new=new, **kw))
M('pyget','negative indices raise (a corrected program)','C58_no_blades_refuted must fail','let k := if Z.ltb z 0 then (z + n)%Z else z in','let k := z in')
M('find_from','comparison not strict the wrong way','C58_unint_inside','else if ltb x a then Some (false, i)','else if ltb a x then Some (false, i)')
M('coef','weight of the second parabola with the wrong sign','C58_unint_quadratic','+ rb * d3 * d4 / (p2 * p5)','- rb * d3 * d4 / (p2 * p5)')
M('coef','last coefficient over p2','C58_unint_quadratic','rb * d2 * d3 / (p5 * p3)).','rb * d2 * d3 / (p5 * p2)).')
M('coef','weights exchanged','C58_unint_slope','(x0 x1 x2 x3 ra x : R) : R * R * R * R :=\n  let rb := 1 - ra in\n  let p1 := x1 - x0 in\n  let p2 := x2 - x1 in\n  let p3 := x3 - x2 in\n  let p4 := p1 + p2 in\n  let p5 := p2 + p3 in\n  let d1 := x - x0 in\n  let d2 := x - x1 in\n  let d3 := x - x2 in\n  let d4 := x - x3 in\n  (ra * d2','(x0 x1 x2 x3 rb x : R) : R * R * R * R :=\n  let ra := 1 - rb in\n  let p1 := x1 - x0 in\n  let p2 := x2 - x1 in\n  let p3 := x3 - x2 in\n  let p4 := p1 + p2 in\n  let p5 := p2 + p3 in\n  let d1 := x - x0 in\n  let d2 := x - x1 in\n  let d3 := x - x2 in\n  let d4 := x - x3 in\n  (ra * d2')
M('unint','below the table the second value','C58_unint_outside','if ltb x a0 then y <- pyget ya 0;; Ok (y, 1%Z)','if ltb x a0 then y <- pyget ya 1;; Ok (y, 1%Z)')
M('unint','above the table flag 1','C58_unint_outside','Ok (y, 2%Z)  (* L38-41 *)','Ok (y, 1%Z)  (* L38-41 *)')
M('unint','last interval uses the last three points shifted','C58_unint_inside','then ((n - 4)%Z, 0)','then ((n - 3)%Z, 0)')
M('unint','last interval uses the first parabola','C58_unint_slope','then ((n - 4)%Z, 0)','then ((n - 4)%Z, 1)')
M('unint','blend with the distance from the left point','C58_unint_slope','((i - 2)%Z, (xi - x) / (xi - xp))','((i - 2)%Z, (x - xp) / (xi - xp))')
M('unint','blend replaced by the mean of the two parabolas','C58_unint_slope','((i - 2)%Z, (xi - x) / (xi - xp))','((i - 2)%Z, 1 / 2)')
M('bq_search','argument not clamped above','C58_biquad_tensor','Ok (t, 2%Z, (hi - 3)%Z, 0)','Ok (x, 2%Z, (hi - 3)%Z, 0)')
M('bq_search','argument not clamped below','C58_biquad_tensor','then (tlo, 1%Z) else (x, 0%Z)','then (x, 1%Z) else (x, 0%Z)')
M('bq_coef','sign of the middle coefficient','C58_biquad_tensor','- ra / p1 * d1 / p2 * d3 +','ra / p1 * d1 / p2 * d3 +')
M('biquad','row offset forgets the number of columns','C58_biquad_tensor','(j4 + 1 + (jx - i - 2) * ny + (jy1 - j3))%Z','(j4 + 1 + (jx - i - 2) + (jy1 - j3))%Z')
M('biquad','flag of y not weighted','C58_biquad_tensor','(kx + 3 * ky)%Z','(kx + ky)%Z')
M('biquad','univariate table read one place too early','C58_biquad_univariate','v <- four_of T (jx + nx) 1','v <- four_of T (jx + nx - 1) 1')
M('J_begin','last group of advance ratios starts one later','C58_tables / C58_design_lift','else if leb J 2 then 2 else 3.','else if leb J 2 then 2 else 4.')
M('cl_range','high lift coefficients start at the third of seven','C58_no_loss / C58_hamilton_errors','else (2, 5, false)%Z','else (3, 6, false)%Z')
M('at_node','tolerance hundred times larger','C58_no_loss','leb (Rabs (cli - a)) (9 / 10000)','leb (Rabs (cli - a)) (9 / 100)')
M('base_ct','thrust table of the power coefficient','C58_table_points','cta <- pyget CT_Angle_table blade','cta <- pyget CP_Angle_table blade')
M('base_ct','blade angle of another advance ratio','C58_table_points','ang <- pyget Blade_angle_table kdx','ang <- pyget Blade_angle_table (kdx - 1)')
M('base_ct','lift coefficient factor dropped','C58_table_points','(cpe * pcli);;','cpe1;;')
M('base_ct','IndexError not turned into AnalysisError','none: tables are never exceeded','| Err IndexError => Err AnalysisError\n  | Err e => Err e','| Err e => Err e')
M('thrust_cl','loss applied below the critical Mach number','C58_no_loss','if ltb 0 dmn then','if ltb dmn 0 then')
M('thrust_cl','critical Mach number from the power table','C58_no_loss','mrow <- pyget mach_corr_table k','mrow <- pyget XTCLI k')
M('thrust_factor','factors and losses exchanged','C58_no_loss / C58_design_lift','Ok (tcl, xft).','Ok (xft, tcl).')
M('iterate','tolerance ten percent','C58_iteration','(1 / 1000))%bool then Ok (Found ct xft)','(1 / 10))%bool then Ok (Found ct xft)')
M('iterate','secant with the wrong sign','C58_design_lift','let next := - g0 *','let next := g0 *')
M('iterate','negative thrust accepted','C58_iteration','if leb next 0 then Ok (NonPositive xft) else','if leb next (next - 1) then Ok (NonPositive xft) else')
M('iterate','activity factor left out of the error','C58_table_points / C58_iteration','let g := ct * afcte * tcl - target in','let g := ct * tcl - target in')
M('at_blades','divergence returns no thrust','C58_hamilton_errors','| NoConvergence => Err ValueError','| NoConvergence => Ok (Some (0, 1))')
M('hamilton','activity factor of the static table for all','none yet','fst p :: repeat (snd p) 6','snd p :: repeat (fst p) 6')
M('hamilton','activity factor of the thrust not interpolated','none yet','2 * J * (snd t - fst t) + fst t','J * (snd t - fst t) + fst t')
M('hamilton','blade index without the shift','C58_hamilton_errors','run (Z.quot num_blades 2 - 1)%Z','run (Z.quot num_blades 2)%Z')
M('hamilton','odd blade numbers use the next even one','C58_odd_blades','if Z.eqb (num_blades mod 2) 0 then','if Z.eqb (num_blades mod 2) (num_blades mod 2) then')
M('pre_checks','all values must be positive (a corrected program)','C58_checks_refuted must fail','if existsb (fun x => negb (eqb x 0)) l then 1 else 0','if forallb (fun x => ltb 0 x) l then 1 else 0')
M('power_coefficient','diameter cubed','C58_power_balance','(tip ^ 3 * diam ^ 2)','(tip ^ 3 * diam ^ 3)')
M('post_thrust','loss applied twice','C58_power_balance','* (36476 / 100) * (1 - loss)','* (36476 / 100) * (1 - loss) ^ 2')
M('post_efficiency','without the compressibility loss','C58_power_balance','J * (ct * xft) / cp else 0','J * ct / cp else 0')
