exec(open('tools/comps/_common.py').read())
NAME = 'GGeom'
HEADER = """GASP geometry: /repo/aviary/subsystems/geometry/gasp_based.

    One engine type.  A local variable that is bound on one branch of an if only has the value 0 on the other branch, where
    Python raises UnboundLocalError when it is read; theorems exclude these runs.  BWBCabinLayout is left out."""
IMPORTS = ['MathModel', 'CompMore', 'CompFun']
FUNCTIONS = {'KSfunction.compute': 'ks1', 'KSfunction.derivatives': 'dks1',
             'sigmoidX': ('sigmoidX1', ['x', 'x0', 'mu']), 'dSigmoidXdx': ('dSigmoidX1', ['x', 'x0', 'mu']),
             'smooth_max': ('smooth_max1', ['x', 'b', 'mu']), 'd_smooth_max': ('d_smooth_max1', ['x', 'b', 'mu']),
             'smooth_min': ('smooth_min1', ['x', 'b', 'mu']), 'd_smooth_min': ('d_smooth_min1', ['x', 'b', 'mu'])}
D = 'subsystems/geometry/gasp_based/'
H, FD, SD, CF, OR, BW = ('ob op Aircraft_Wing_HAS_FOLD', 'ob op Aircraft_Wing_FOLD_DIMENSIONAL_LOCATION_SPECIFIED',
    'ob op Aircraft_Strut_DIMENSIONAL_LOCATION_SPECIFIED', 'ob op Aircraft_Wing_CHOOSE_FOLD_LOCATION',
    'enum_is (on op v_orientation) "%s"', 'enum_is (oe op Aircraft_Design_TYPE) "%s"')
tail = lambda h: {OR % 'horizontal': h, OR % 'vertical': not h, '(%s)' % (OR % 'vertical'): not h, '(%s)' % (OR % 'horizontal'): h}
body = lambda b: {k % t: b if t == 'BLENDED_WING_BODY' else not b for k in (BW, 'enum_is design_type "%s"') for t in ('BLENDED_WING_BODY', 'TRANSPORT')}
CFS = [('Strut', {CF: False}), ('Chosen', {CF: True})]
VARIANTS = {'TailVolCoef': [('H', tail(True)), ('V', tail(False))], 'TailSize': [('H', tail(True)), ('V', tail(False))],
            'StrutCalcs': [('Dim', {SD: True}), ('NonDim', {SD: False})], 'FoldCalcs': [('Dim', {FD: True}), ('NonDim', {FD: False})],
            'BWBWingVolume': [('Fold', {H: True}), ('NoFold', {H: False})],
            'WingFoldArea': CFS, 'WingFoldVolume': CFS, 'BWBWingFoldVolume': CFS,
            'ExposedWing': [('BWB', body(True)), ('TW', body(False))]}
# the names that depend on the orientation, and names built by string addition, are written out in the source before it is translated
TAILS = ['VOLUME_COEFFICIENT', 'MOMENT_RATIO', 'ASPECT_RATIO', 'TAPER_RATIO', 'AREA', 'SPAN', 'ROOT_CHORD', 'AVERAGE_CHORD', 'MOMENT_ARM']
def names(h):
    t = 'Aircraft.HorizontalTail.' if h else 'Aircraft.VerticalTail.'
    keys = ['vol_coef', 'r_arm', 'ar', 'tr', 'area', 'span', 'rchord', 'chord', 'arm']
    l = [("self.io_names['%s']" % k, t + v) for k, v in zip(keys, TAILS)]
    return l + [("self.io_names['wing_ref']", 'Aircraft.Wing.AVERAGE_CHORD' if h else 'Aircraft.Wing.SPAN'),
                ('k1, k2, k3 = self.k', 'k1, k2, k3 = (0.43, 0.38, 0.85)' if h else 'k1, k2, k3 = (0.07, 0.0434, 0.336)')]
REWRITE = {'TailVolCoefH': names(True), 'TailSizeH': names(True), 'TailVolCoefV': names(False), 'TailSizeV': names(False)}
for x in ('Dim', 'NonDim'):
    REWRITE['StrutCalcs' + x] = [("strut_loc_name + '_dimensionless'", 'Aircraft.Strut.ATTACHMENT_LOCATION_DIMENSIONLESS')]
    REWRITE['FoldCalcs' + x] = [("folded_span_name + '_dimensionless'", 'Aircraft.Wing.FOLDED_SPAN_DIMENSIONLESS')]
SPECS = []
for f in ['electric.py', 'empennage.py', 'engine.py', 'fuselage.py', 'non_dimensional_conversion.py', 'strut.py', 'wing.py']:
    if f == 'engine.py':
        for g, n in [('f', 'buried_f'), ('df', 'buried_df'), ('d2f', 'buried_d2f'), ('g1', 'buried_g1'), ('dg1', 'buried_dg1'), ('g2', 'buried_g2'), ('dg2', 'buried_dg2')]:
            SPECS.append(dict(file=D + f, fun=g, name=n))
    if f == 'wing.py':
        for g in ['f', 'df', 'd2f', 'g1', 'dg1', 'g2', 'dg2']:
            SPECS.append(dict(file=D + f, fun=g, name='mount_' + g))
    for c in classes(D + f, one=True):
        c['unbound'] = '*'
        if c['cls'] == 'BWBCabinLayout':
            continue
        if c['cls'] in VARIANTS:
            for b, a in VARIANTS[c['cls']]:
                SPECS.append(dict(c, assume=a, name=c['cls'] + b, rewrite=REWRITE.get(c['cls'] + b, ())))
        else:
            SPECS.append(c)
