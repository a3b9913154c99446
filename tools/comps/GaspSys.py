exec(open('tools/comps/_common.py').read())
NAME = 'GaspSys'
HEADER = """GASP based masses of systems, equipment, operating items and landing gear, /repo/aviary/subsystems/mass/gasp_based.

    Options that hold one value per engine type (NUM_ENGINES, REFERENCE_DIAMETER and the like) have one element.  A
    local variable that is bound on one branch of an if only has the value 0 on the other branch, where Python raises
    UnboundLocalError when it is read; theorems exclude these runs.  int(x) is floorR x (x is not negative here)."""
FUNCTIONS = {'KSfunction.compute': 'ks1', 'KSfunction.derivatives': 'dks1', 'sigmoidX': ('sigmoidX1', ['x', 'x0', 'mu']), 'dSigmoidXdx': ('dSigmoidX1', ['x', 'x0', 'mu']),
             'smooth_max': ('smooth_max1', ['x', 'b', 'mu']), 'd_smooth_max': ('d_smooth_max1', ['x', 'b', 'mu'])}
IMPORTS = ['MathModel', 'CompMore', 'CompFun']
D = 'subsystems/mass/gasp_based/'
SPECS = []
for f in ['air_conditioning', 'anti_icing', 'apu', 'avionics', 'cargo_containers', 'control', 'crew', 'electrical',
          'emergency_equipment', 'engine_oil', 'furnishings', 'hydraulics', 'instruments', 'landing', 'oxygen_system', 'passenger_service']:
    if f == 'furnishings':
        SPECS += [dict(file=D + f + '.py', fun='get_num_of_flight_attendent'), dict(file=D + f + '.py', fun='get_num_of_lavatories'),
                  dict(file=D + f + '.py', fun='get_num_of_pilots', sig={'engine_type': 'string'})]
    SPECS += classes(D + f + '.py', one=True, unbound='*')
