exec(open('tools/comps/_common.py').read())
NAME = 'GLoad'
HEADER = """GASP design loads and fuel masses: /repo/aviary/subsystems/mass/gasp_based/design_load.py and fuel.py.

    A local variable that is bound on one branch of an if only has the value 0 on the other branch, where Python raises
    UnboundLocalError when it is read; theorems exclude these runs.  Warnings that are only printed are left out."""
IMPORTS = ['MathModel', 'CompMore', 'CompFun']
FUNCTIONS = {'sigmoidX': ('sigmoidX1', ['x', 'x0', 'mu']), 'dSigmoidXdx': ('dSigmoidX1', ['x', 'x0', 'mu']),
             'smooth_max': ('smooth_max1', ['x', 'b', 'mu']), 'd_smooth_max': ('d_smooth_max1', ['x', 'b', 'mu'])}
D = 'subsystems/mass/gasp_based/'
SPECS = []
SM = 'ob op Aircraft_Design_SMOOTH_MASS_DISCONTINUITIES'
sm = lambda b: {SM: b, 'smooth': b}
CAT = 'on op Aircraft_Design_PART25_STRUCTURAL_CATEGORY'
light = lambda b: {'ltb (%s) 3' % CAT: b, 'ltb CATD 3': b, **({'(eqb CATD 3)': False, 'eqb CATD 3': False, 'ltb (3001 / 1000) CATD': False} if b else {})}
TWO = ['LoadParameters', 'LoadFactors', 'BWBLoadFactors', 'BodyTankCalculations', 'FuelComponents']
for f in ['design_load.py', 'fuel.py']:
    for c in classes(D + f, one=True):
        c['unbound'] = '*'
        # the default of the width is written out
        if c['cls'] == 'BodyTankCalculations':
            c['rewrite'] = [('(wingfuel_wt_min, 0)', '(wingfuel_wt_min, 0, 1.0)'),
                            ('design_fuel_vol - max_wingfuel_vol, 0)', 'design_fuel_vol - max_wingfuel_vol, 0, 1.0)'),
                            ('design_fuel_vol - max_wingfuel_vol, 0\n', 'design_fuel_vol - max_wingfuel_vol, 0, 1.0\n')]
        if c['cls'] in ('LoadSpeeds', 'BWBLoadSpeeds'):
            for b in (False, True):
                SPECS.append(dict(c, assume={**light(True), **sm(b)}, name=c['cls'] + 'Light' + ('Smooth' if b else 'Sharp')))
            SPECS.append(dict(c, assume=light(False), name=c['cls'] + 'Transport'))
        elif c['cls'] in TWO:
            for b in (False, True):
                SPECS.append(dict(c, assume=sm(b), name=c['cls'] + ('Smooth' if b else 'Sharp')))
        else:
            SPECS.append(c)
