exec(open('tools/comps/_common.py').read())
NAME = 'FAero'
HEADER = """FLOPS based aerodynamics: /repo/aviary/subsystems/aerodynamics/flops_based, and the battery of
    /repo/aviary/subsystems/energy.

    Components with node arrays are modelled at one node.  Tables that OpenMDAO interpolates are arguments: functions of two
    numbers with functions for their partial derivatives, so the theorems hold for every table and every interpolation method
    that returns the derivatives of what it returns.  SkinFriction, an implicit component, is the component from its inputs and
    outputs to its residuals at one node and one surface; the attribute TAW, which guess_nonlinear sets, is an option.
    SkinFrictionDrag is the term of one surface of the sum that it returns; the option laminar says whether any surface has
    laminar flow.  CompressibilityDrag is a component below and one above a difference of 0.05 of the Mach number from the
    design Mach number."""
IMPORTS = ['MathModel', 'CompMore', 'CompFun']
A = 'subsystems/aerodynamics/flops_based/'
FUNCTIONS = {k: k for k in ['BUFT', 'BUFT1', 'BUFT2', 'PCAR', 'PCAR1', 'PCAR2', 'BSUP', 'BSUP1', 'BSUP2', 'WFI', 'WFI1', 'WFI2',
                            'PCW', 'PCW1', 'PCW2', 'BSUB', 'BSUB1', 'BSUB2', 'FCDPT', 'FCDPT1', 'FCDPT2', 'FCDPT3']}
tab = lambda *a: ['%s%s : R -> R -> R' % (t, k) for t in a for k in ('', '1', '2')]
SPECS = []
SPECS += classes(A + 'lift.py') + classes(A + 'drag.py') + classes(A + 'ground_effect.py')
RE, SW = 'ob op Aircraft_Wing_SPAN_EFFICIENCY_REDUCTION', 'ltb SW25 0'
for n, r in (('', False), ('Redux', True)):
    for m, w in (('', False), ('Forward', True))[:1 if r else 2]:
        SPECS += [dict(file=A + 'induced_drag.py', cls='InducedDrag', name='InducedDrag' + n + m, assume={RE: r, SW: w, 'redux': r})]
DM = '(inputs[Dynamic.Atmosphere.MACH] - inputs[Aircraft.Design.MACH])'
SPECS += [dict(file=A + 'buffet_lift.py', cls='BuffetLift', args=tab('BUFT'), rewrite=[
    ('TC23 = np.repeat(TC23, len(del_Mach))', 'pass'), ('x = np.transpose(np.array([TC23, del_Mach]))', 'pass'),
    ('FCLB, dFCLB = BUFTTable.interpolate(x, compute_derivative=True)', 'FCLB = BUFT(TC23, del_Mach)'),
    ('self.FCLB = FCLB', 'pass'), ('self.dFCLB = dFCLB', 'pass'), ('FCLB = self.FCLB', 'FCLB = BUFT(TC ** (2.0 / 3.0), %s)' % DM),
    ('self.dFCLB[:, 0]', 'BUFT1(TC ** (2.0 / 3.0), %s)' % DM), ('self.dFCLB[:, 1]', 'BUFT2(TC ** (2.0 / 3.0), %s)' % DM)])]


def clamp(t, fn, a, b):
    """Changes for a table whose negative values count as 0."""
    return [('%s, self.d%s = %s.interpolate(x, compute_derivative=True)' % (t, t, dict(PCAR='PCARtable', BSUP='BSUPtable', PCW='PCWtable', BSUB='BSUBtable')[fn]),
             '%s = %s(%s, %s)' % (t, fn, a, b)),
            ('self.clamp_%s = np.where(%s <= 0)' % (t, t), 'pass'),
            ('self.d%s[self.clamp_%s] = 0.0' % (t, t), 'pass'), (' %s[self.clamp_%s] = 0.0' % (t, t), ' %s[%s <= 0] = 0.0' % (t, t)),
            ('        self.%s = %s\n' % (t, t), '        pass\n')]


def part(t, fn, a, b, d0, d1):
    v = '%s(%s, %s)' % (fn, a, b)
    w = lambda k: 'np.where(%s <= 0, 0.0, %s%s(%s, %s))' % (v, fn, k, a, b)
    return [('%s = self.%s' % (t, t), '%s = np.where(%s <= 0, 0.0, %s)' % (t, v, v)),
            ('%s = self.d%s[:, 0]' % (d0, t), '%s = %s' % (d0, w('1'))), ('%s = self.d%s[:, 1]' % (d1, t), '%s = %s' % (d1, w('2')))]


MA, DE = 'inputs[Dynamic.Atmosphere.MACH]', 'inputs[Aircraft.Design.MACH]'
COMMON = [('def compute(', 'def compute_0('), ('def compute_partials(', 'def compute_partials_0('), ('[idx, 0]', ''), ('[idx]', ''),
          ('x = np.empty((nn, 2), dtype=mach.dtype)', 'pass'), ('x[:, 0] = del_mach', 'pass'), ('x[:, 0] = mach', 'pass'),
          ('x[:, 1] = ART', 'pass'), ('x[:, 1] = SOS', 'pass'), ('x[:, 1] = TOC', 'pass'), ('x[:, 1] = diam_to_wing_span_ratio', 'pass'),
          ('nn = len(mach)', 'pass'), ('return compress_drag_coeff', "outputs['compress_drag_coeff'] = compress_drag_coeff")]
ART = '(AR * np.tan(sweep25 / 57.2958) + (1.0 - wing_taper_ratio) / (1.0 + wing_taper_ratio))'
SOS = '(1.0 + base_area / fuse_area)'
DS = 'inputs[Aircraft.Fuselage.DIAMETER_TO_WING_SPAN]'
SUP = COMMON + clamp('CD3', 'PCAR', 'del_mach', 'ART') + clamp('CD4', 'BSUP', 'mach', 'SOS') + [
    ('CD5, self.dCD5 = WFITable.interpolate(x[idx_mach], compute_derivative=True)', 'CD5 = WFI(mach, diam_to_wing_span_ratio)'),
    ('if len(idx_mach[0]) > 0:', 'if mach >= 1.0:'), ('compress_drag_coeff[idx_mach] += ', 'compress_drag_coeff += '),
    ('self.dCD5 = np.zeros((nn, 2), dtype=mach.dtype)', 'pass'), ('self.dCD4 = np.zeros((nn, 2), dtype=mach.dtype)', 'pass'), ('        self.CD5 = CD5\n', '        pass\n'),
    ('CD5 = self.CD5', 'CD5 = WFI(mach, %s)' % DS), ('self.dCD5[:, 0]', 'WFI1(mach, %s)' % DS), ('self.dCD5[:, 1]', 'WFI2(mach, %s)' % DS),
    ('dCd_dMach[idx_mach]', 'dCd_dMach'), ('dCd_dwing_taper_ratio[idx_mach]', 'dCd_dwing_taper_ratio'), ('dCd_dsweep25[idx_mach]', 'dCd_dsweep25'), ('dCd_ddiam_to_wing_span_ratio[idx_mach]', 'dCd_ddiam_to_wing_span_ratio'),
    ('def _compute_supersonic(self, inputs, outputs, idx)', 'def compute(self, inputs, outputs)'),
    ('def _compute_partials_supersonic(self, inputs, partials, idx)', 'def compute_partials(self, inputs, partials)')]
SUP += part('CD3', 'PCAR', '(mach - %s)' % DE, ART, 'dCD3_ddel_mach', 'dCD3_dART') + part('CD4', 'BSUP', 'mach', SOS, 'dCD4_dMach', 'dCD4_dSOS')
SUB = COMMON + clamp('CD1', 'PCW', 'del_mach', 'TOC') + clamp('CD2', 'BSUB', 'mach', 'SOS') + [
    ('self.dCD2 = np.zeros((nn, 2), dtype=mach.dtype)', 'pass'),
    ('def _compute_subsonic(self, inputs, outputs, idx)', 'def compute(self, inputs, outputs)'),
    ('def _compute_partials_subsonic(self, inputs, partials, idx)', 'def compute_partials(self, inputs, partials)')]
SUB += part('CD1', 'PCW', DM, 'TC ** (2.0 / 3.0)', 'dCD1_ddel_mach', 'dCD1_dTOC') + part('CD2', 'BSUB', MA, SOS, 'dCD2_dMach', 'dCD2_dSOS')
SPECS += [dict(file=A + 'compressibility_drag.py', cls='CompressibilityDrag', name='CompressSub', args=tab('PCW', 'BSUB'), rewrite=SUB),
          dict(file=A + 'compressibility_drag.py', cls='CompressibilityDrag', name='CompressSuper', args=tab('PCAR', 'BSUP', 'WFI'), rewrite=SUP)]
LDD = open('/repo/aviary/' + A + 'lift_dependent_drag.py').read()
LOOP = LDD[LDD.index('        for i in range(0, nn):'):LDD.index('        DCDP = FCDP * (1.0 + CAM')]
CLAMP = LDD[LDD.index('        if self.clamp_indices:'):LDD.index('# Tables')]
FCL = 'DELM, DELCL, A'
FCP = 'mach - MDES, 2.0 * lift / (Sref * gamma * P * mach**2) - CLDES, AR * TC ** (1.0 / 3.0)'
WRTS = ['Dynamic.Atmosphere.MACH', 'Dynamic.Vehicle.LIFT', 'Dynamic.Atmosphere.STATIC_PRESSURE', 'Aircraft.Wing.AREA', 'Aircraft.Wing.ASPECT_RATIO',
        'Aircraft.Wing.THICKNESS_TO_CHORD', 'Aircraft.Wing.MAX_CAMBER_AT_70_SEMISPAN', 'Aircraft.Wing.SWEEP', 'Aircraft.Design.LIFT_COEFFICIENT', 'Aircraft.Design.MACH']
ZERO = '        if FCDP * (1.0 + CAM / 10.0) * (AR * TC ** (1.0 / 3.0)) / AR < 0:\n' + ''.join("            partials['pressure_drag_coeff', %s] = 0.0\n" % w for w in WRTS)
pad = lambda new, old: new + '\n' * (old.count('\n') - new.count('\n'))
SPECS += [dict(file=A + 'lift_dependent_drag.py', cls='LiftDependentDrag', args=['FCDPT%s : R -> R -> R -> R' % k for k in ('', '1', '2', '3')], rewrite=[
    (LOOP, pad('        FCDP = FCDPT(%s)\n' % FCL, LOOP)), (CLAMP, pad(ZERO, CLAMP)), ('self.A = ', ''),
    ('self.clamp_indices = np.where(DCDP < 0)', 'pass')] + [
    ('        %s = np.empty(nn, dtype=mach.dtype)' % n, '        pass') for n in ('FCDP', 'DCDP', 'dFCDP_dDELM', 'dFCDP_dDELCL', 'dFCDP_dA')] + [
    ('        self.%s = %s\n' % (n, n), '        pass\n') for n in ('FCDP', 'dFCDP_dA', 'dFCDP_dDELM', 'dFCDP_dDELCL')] + [
    ("        nn = self.options['num_nodes']\n        gamma", '        pass\n        gamma')] + [
    ('        %s = self.%s\n' % (n, n), '        %s = FCDPT%s(%s)\n' % (n, f, FCP)) for n, f in (('FCDP', ''), ('dFCDP_dA', '3'), ('dFCDP_dDELM', '1'), ('dFCDP_dDELCL', '2'))])]
T4 = ('Dynamic.Atmosphere.TEMPERATURE', 'Dynamic.Atmosphere.STATIC_PRESSURE', 'Dynamic.Atmosphere.MACH')
SPECS += [dict(file=A + 'skin_friction.py', cls='SkinFriction', params=['TAW'], rewrite=[
    ('def apply_nonlinear(self, inputs, outputs, residuals)', 'def compute(self, inputs, outputs)'), ('def linearize(', 'def compute_partials('),
    ("outputs['", "inputs['"), ("residuals['", "outputs['"), ('T, pressure, mach, length = inputs.values()', "T, pressure, mach, length = inputs[%s], inputs[%s], inputs[%s], inputs['characteristic_lengths']" % T4),
    ("self.add_output('cf_iter',", "self.add_input('cf_iter', np.ones((nn, nc)));self.add_output('cf_iter',"),
    ("self.add_output('skin_friction_coeff',", "self.add_input('skin_friction_coeff', np.ones((nn, nc)));self.add_output('skin_friction_coeff',"),
    ("self.add_output('Re',", "self.add_input('Re', np.ones((nn, nc)));self.add_output('Re',"),
    ("self.add_output('wall_temp',", "self.add_input('wall_temp', np.ones((nn, nc)));self.add_output('wall_temp',"),
    ('for i in range(nc):', 'if True:'), ('wall_temp_ratio[:, i]', 'wall_temp_ratio'), ('np.tile(RE * mach, nc).reshape((nc, nn)).T', 'RE * mach'),
    ('        self.TAW = 1.0', '        pass'), ('self.TAW', 'TAW'), ('        nc = self.nc\n', '        pass\n'), ("        nn = self.options['num_nodes']\n", '        pass\n')])]
SPECS += [dict(file=A + 'skin_friction_drag.py', cls='SkinFrictionDrag', name='SkinFrictionTerm', unbound='*', types={'laminar': 'bool'}, rewrite=[
    ('laminar_flow = np.any(lam_up > 0.0) or np.any(lam_low > 0.0)', "laminar_flow = self.options['laminar']"),
    ('form_factor = np.empty(nc, dtype=cf.dtype)', 'form_factor = 0.0'), ('dform_dfine = np.empty(nc, dtype=cf.dtype)', 'dform_dfine = 0.0'),
    ('np.where(fineness > 0.5)[0]', 'np.where(fineness > 0.5)'), ('np.where(fineness <= 0.5)[0]', 'np.where(fineness <= 0.5)'),
    ('fineness[idx_body]', 'fineness'), ('fineness[idx_surf]', 'fineness'), ("'j,ij,j->i'", "'j,ij,j->ij'"), ('np.tile(DCDF_dcf, nn)', 'DCDF_dcf'),
    ('        nc = self.nc\n', '        pass\n'), ("        nn = self.options['num_nodes']\n", '        pass\n'), ('self.F[13]', 'F[13]'), ('        F = self.F\n', '        pass\n')] + [
    ('F[%d]' % k, '(%s)' % v) for k, v in enumerate('4.34255 -1.14281 0.171203 -0.0138334 0.621712e-3 0.137442e-6 -0.145532e-4 2.94206 7.16974 48.8876 -1403.02 8598.76 -15834.3 4.275'.split())])]
SPECS += classes('subsystems/energy/battery_sizing.py')
