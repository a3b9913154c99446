exec(open('tools/comps/_common.py').read())
NAME = 'MassSys'
HEADER = """FLOPS based masses of systems and equipment, /repo/aviary/subsystems/mass/flops_based."""
FUNCTIONS = {'sin_int4': 'sin_int4', 'dydx_sin_int4': 'dydx_sin_int4',
             'distributed_engine_count_factor': 'distributed_engine_count_factor',
             'distributed_thrust_factor': 'distributed_thrust_factor'}
IMPORTS = ['MathModel', 'MassDistModel']
D = 'subsystems/mass/flops_based/'
SPECS = []
for f in ['air_conditioning', 'anti_icing', 'apu', 'avionics', 'electrical', 'hydraulics', 'instruments', 'furnishings', 'surface_controls']:
    SPECS += classes(D + f + '.py', skip=('AntiIcingMass',))
