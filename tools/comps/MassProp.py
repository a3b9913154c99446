exec(open('tools/comps/_common.py').read())
NAME = 'MassProp'
HEADER = """FLOPS based masses of propulsion and fuel systems, /repo/aviary/subsystems/mass/flops_based."""
FUNCTIONS = {'sin_int4': 'sin_int4', 'dydx_sin_int4': 'dydx_sin_int4',
             'distributed_engine_count_factor': 'distributed_engine_count_factor',
             'distributed_thrust_factor': 'distributed_thrust_factor'}
IMPORTS = ['MathModel', 'MassDistModel']
D = 'subsystems/mass/flops_based/'
SPECS = []
for f in ['engine_controls', 'fuel_capacity', 'fuel_system']:
    SPECS += classes(D + f + '.py', skip=())
