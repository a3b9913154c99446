MUTANTS = []
def M(definition, edit, breaks, old, new, file='AtmModel.v', **kw):
    MUTANTS.append(dict(file=file, definition=definition, edit=edit, breaks=breaks, old=old, new=new, **kw))
def G(*a, **kw):
    M(*a, file='GeoModel.v', **kw)
M('search','side right instead of left','C35_bin','if leb h (a i) then i','if ltb h (a i) then i')
M('bin_left','table point on the right of the bin','C35_witness / C55_temperature_positive','| S j => alt t j end','| S j => alt t (S j) end')
M('cubic_slope','factor three missing in the slope','C35_AtmosphereComp','(2 * k2 c + 3 * k3 c * dx)','(2 * k2 c + k3 c * dx)')
M('cubic_value','quadratic term dropped (slope unchanged)','C35_AtmosphereComp','(k2 c + dx * k3 c))','(dx * k3 c))')
M('geopotential','radius in the denominator only (partial unchanged)','C43_geopotential','h / (R0 a + h) * R0 a else h','h / (R0 a + h) else h')
M('dz_dh','derivative not squared','C35_AtmosphereComp','(R0 a / (R0 a + h)) ^ 2 else 1','(R0 a / (R0 a + h)) else 1')
M('air_density','temperature correction with the wrong sign','C35_gas_law','(/ rho + R_air a * dt a * / P).','(/ rho - R_air a * dt a * / P).')
M('density_slope','pressure term of the density slope dropped','C35_AtmosphereComp',' + - (1) * R_air a * dt a * / P ^ 2 * dP).',').')
M('air_sound','gas constant used without gamma squared away','C35_sound','Definition air_sound := sqrt (K a * T).','Definition air_sound := sqrt (R_air a * T).')
M('viscosity_slope','exponent one and a half dropped','C35_AtmosphereComp','15 / 10 * beta a * sqrt T * dT','beta a * sqrt T * dT')
M('dsos_slope','product rule without the square root term','C35_dsos_geopotential','- (5 / 10 * (5 / 10) * pw (- (15 / 10)) (K a * T) * (K a * dT)) * (dT * K a)\n    + ','')
M('AtmosphereComp','last partial multiplied by dz_dh once (a corrected program)','C35_dsos_geometric_refuted must fail','dsos_slope a t z * d ^ 2)','dsos_slope a t z * d)')
M('AtmosphereComp','sound partial without the chain factor','C35_AtmosphereComp','(v_SOUND, v_ALTITUDE, sound_slope a t z * d)','(v_SOUND, v_ALTITUDE, sound_slope a t z)')
M('component_options','delta_T handed on (a corrected program)','C35_delta_T_refuted must fail','g_delta_T := 0 |}','g_delta_T := g_delta_T g |}')
M('sea_level_density','row of the bin below zero','C55_sea_level','nth (i + 1) (q_rho q)','nth i (q_rho q)')
M('zero_at','last altitude when none is zero','C55_sea_level','| [] => None\n  | x :: r => if','| [] => Some 0%nat\n  | x :: r => if negb')
M('table_of','pressure and density exchanged','C55_gas_law','akima_P := fun i => coef_of (nth i (q_P q) zeroQ4)','akima_P := fun i => coef_of (nth i (q_rho q) zeroQ4)')
G('height','gravity exponent not raised by one','C43_loop','GNS * pw (CM1 + 1)','GNS * pw CM1')
G('height','centrifugal term added','C43_loop','- z * (r - z / 2) * OC2','+ z * (r - z / 2) * OC2')
G('height','division by gravity missing','C43_loop','* OC2) / grav_earth.','* OC2).')
G('passes','update in the wrong direction','C43_convert','Some (z + dh) else passes n\' ho (z + dh)','Some (z - dh) else passes n\' ho (z - dh)')
G('passes','update not made on the last pass','C43_convert','Some (z + dh) else','Some z else')
G('passes','absolute value forgotten','C43_convert','leb (Rabs dh) 1','leb dh 1')
G('passes','tolerance of ten metres','C43_convert','leb (Rabs dh) 1','leb (Rabs dh) 10')
G('convert','result left in metres','C43_convert','Feet (z / foot)','Feet z')
G('convert','target in feet','C43_convert','passes n (hft * foot)','passes n hft')
G('start','correction in the wrong unit','C43_convert','(1 / 100000000)','(1 / 10000)')
G('convert','negative altitudes treated as positive (a corrected program)','C43_negative_refuted must fail','if ltb hft 0 then NotReal','if ltb hft (hft - 1) then NotReal')
