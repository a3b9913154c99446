exec(open('tools/comps/_common.py').read())
NAME = 'EomCond'
HEADER = """Flight conditions: /repo/aviary/subsystems/atmosphere/flight_conditions.py and
    /repo/aviary/mission/solved_two_dof/ode/unsteady_solved_flight_conditions.py.

    The options input_speed_type and ground_roll decide which variables exist, so each combination is its own
    component."""
T = 'mission/solved_two_dof/ode/'
SPECS = []
for t in ['TAS', 'EAS', 'MACH']:
    for g, v in [('flight', False), ('ground', True)]:
        SPECS += [dict(file=T + 'unsteady_solved_flight_conditions.py', cls='UnsteadySolvedFlightConditions', name='UnsteadyConditions_%s_%s' % (t, g), fix={'ground_roll': v, 'input_speed_type': t})]
    SPECS += [dict(file='subsystems/atmosphere/flight_conditions.py', cls='FlightConditions', name='FlightConditions_' + t, fix={'input_speed_type': t})]
