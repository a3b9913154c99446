exec(open('tools/comps/_common.py').read())
NAME = 'MassStruct'
HEADER = """FLOPS based masses of the airframe, /repo/aviary/subsystems/mass/flops_based."""
FUNCTIONS = {'sin_int4': 'sin_int4', 'dydx_sin_int4': 'dydx_sin_int4',
             'distributed_engine_count_factor': 'distributed_engine_count_factor',
             'distributed_thrust_factor': 'distributed_thrust_factor'}
IMPORTS = ['MathModel', 'MassDistModel']
D = 'subsystems/mass/flops_based/'
SPECS = []
for f in ['canard', 'fin', 'fuselage', 'horizontal_tail', 'vertical_tail', 'landing_gear', 'landing_mass', 'landing_group', 'wing_common', 'wing_group']:
    SPECS += classes(D + f + '.py', skip=('BWBAftBodyMass',))
