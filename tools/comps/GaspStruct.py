exec(open('tools/comps/_common.py').read())
NAME = 'GaspStruct'
HEADER = """GASP masses of the wing, the fuselage, the tails, the engines and the fixed parts,
    /repo/aviary/subsystems/mass/gasp_based.

    One engine type.  A local variable that is bound on one branch of an if only has the value 0 on the other branch, where
    Python raises UnboundLocalError when it is read; theorems exclude these runs.  WingMountEngineMass and HighLiftMass are left out."""
IMPORTS = ['MathModel', 'CompMore', 'CompFun']
FUNCTIONS = {'KSfunction.compute': 'ks1', 'KSfunction.derivatives': 'dks1',
             'sigmoidX': ('sigmoidX1', ['x', 'x0', 'mu']), 'dSigmoidXdx': ('dSigmoidX1', ['x', 'x0', 'mu']),
             'smooth_max': ('smooth_max1', ['x', 'b', 'mu']), 'd_smooth_max': ('d_smooth_max1', ['x', 'b', 'mu'])}
D = 'subsystems/mass/gasp_based/'
SPECS = []
ST = 'ob op Aircraft_Wing_HAS_STRUT'
FO = 'ob op Aircraft_Wing_HAS_FOLD'
VARIANTS = {'StrutAndFoldMass': [('Strut', {ST: True, FO: False}), ('Fold', {ST: False, FO: True}), ('Both', {ST: True, FO: True}),
                                 ('None', {ST: False, FO: False})]}
for f in ['wing.py', 'fixed.py', 'engine.py']:
    for c in classes(D + f, one=True):
        c['unbound'] = '*'
        if c['cls'] in ('WingMountEngineMass', 'HighLiftMass'):
            continue
        if c['cls'] in VARIANTS:
            for b, a in VARIANTS[c['cls']]:
                SPECS.append(dict(c, assume=a, name=c['cls'] + b))
        else:
            SPECS.append(c)
