exec(open('tools/comps/_common.py').read())
NAME = 'GAero'
HEADER = """GASP aerodynamics: /repo/aviary/subsystems/aerodynamics/gasp_based: common.py, gasp_aero_coeffs.py, interference.py and the
    components of gaspaero.py with partials of their own.

    Components with node arrays are modelled at one node; one engine type.  Warnings that are only printed are left out, and so
    is the AnalysisError for a Mach number outside of (0, 1); theorems exclude these runs.  AeroForces and CLFromLift are here,
    TimeRamp and TanhRampComp are not."""
IMPORTS = ['MathModel', 'CompMore', 'CompFun']
FUNCTIONS = {'smooth_min': ('smooth_min', ['x', 'b', 'mu']), 'd_smooth_min': ('d_smooth_min', ['x', 'b', 'mu'])}
D = 'subsystems/aerodynamics/gasp_based/'
SPECS = []
DT = 'oe op Aircraft_Design_TYPE'
kind = lambda b: {k % (v, t): (t == 'BLENDED_WING_BODY') == b for k in ('enum_is (%s) "%s"', 'enum_is %s "%s"') for v in (DT, 'design_type') for t in ('BLENDED_WING_BODY', 'TRANSPORT')}
OA = 'ob op v_output_alpha'
for f in ['common.py', 'gasp_aero_coeffs.py', 'interference.py', 'gaspaero.py']:
    for c in classes(D + f, one=True, skip=('TimeRamp', 'TanhRampComp', 'WingTailRatios', 'Xlifts', 'AeroGeom', 'DragCoef', 'DragCoefClean', 'GroundEffect')):
        c['unbound'] = '*'
        if c['cls'] == 'UFac':
            SPECS.append(dict(c, name='UFacTransport', assume=kind(False)))
            P = 'np.piecewise(ufac, [ufac < 0.975, ufac >= 0.975], [1, 0])'
            for b in (False, True):
                SPECS.append(dict(c, name='UFacBWB' + ('Smooth' if b else 'Sharp'), assume={**kind(True), 'ob op v_smooth_ufac': b, 'smooth': b},
                                  rewrite=[(P, 'np.where(ufac < 0.975, 1, 0)')]))
        elif c['cls'] in ('LiftCoeffClean', 'BWBLiftCoeffClean'):
            for b in (False, True):
                SPECS.append(dict(c, name=c['cls'] + ('Alpha' if b else ''), assume={OA: b}))
        elif c['cls'] == 'BWBBodyLiftCurveSlope':
            SPECS.append(dict(c, rewrite=[('if any(x < -eps or x >= 1.0 + eps for x in mach.real):', 'if False:'),
                                          ('elif any(x > 0.8 + eps for x in mach.real):', 'elif False:')]))
        else:
            SPECS.append(c)
for c in SPECS:
    if c['cls'] in ('BWBLiftCoeff', 'BWBLiftCoeffClean'):
        c['rewrite'] = [('if any(x > 0.0 for x in alpha.real - alpha_stall.real):', 'if False:')]
    if c['cls'] == 'TopAndBottomWidth':
        c['rewrite'] = [('cs.abs(', 'abs(')]
