exec(open('tools/comps/_common.py').read())
NAME = 'MassLoad'
HEADER = """FLOPS based masses of payload, crew and operating items, /repo/aviary/subsystems/mass/flops_based."""
FUNCTIONS = {'sin_int4': 'sin_int4', 'dydx_sin_int4': 'dydx_sin_int4',
             'distributed_engine_count_factor': 'distributed_engine_count_factor',
             'distributed_thrust_factor': 'distributed_thrust_factor'}
IMPORTS = ['MathModel', 'MassDistModel']
D = 'subsystems/mass/flops_based/'
SPECS = []
for f in ['cargo_containers', 'crew', 'empty_margin', 'engine_oil', 'paint', 'passenger_service', 'payload', 'unusable_fuel']:
    SPECS += classes(D + f + '.py', skip=())
