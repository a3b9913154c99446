exec(open('tools/comps/_common.py').read())
NAME = 'MassSum'
HEADER = """FLOPS based mass summation, /repo/aviary/subsystems/mass/flops_based/mass_summation.py."""
FUNCTIONS = {'sin_int4': 'sin_int4', 'dydx_sin_int4': 'dydx_sin_int4',
             'distributed_engine_count_factor': 'distributed_engine_count_factor',
             'distributed_thrust_factor': 'distributed_thrust_factor'}
IMPORTS = ['MathModel', 'MassDistModel']
D = 'subsystems/mass/flops_based/'
SPECS = []
for f in ['mass_summation']:
    SPECS += classes(D + f + '.py', skip=('StructureMass',))
