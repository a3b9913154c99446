exec(open('tools/comps/_common.py').read())
NAME = 'EomEnergy'
HEADER = """Energy-state equations of motion: /repo/aviary/mission/energy_state/ode and /repo/aviary/mission/ode.

    The option climbing decides which variables exist, so each value of it is its own component."""
E = 'mission/energy_state/'
SPECS = []
SPECS += classes(E + 'ode/landing_eom.py')
SPECS += classes(E + 'ode/range_rate.py') + classes(E + 'ode/required_thrust.py')
SPECS += [dict(file=E + 'ode/takeoff_eom.py', cls='StallSpeed', name='TakeoffStallSpeed')]
for c in ['DistanceRates', 'SumForces']:
    SPECS += [dict(file=E + 'ode/takeoff_eom.py', cls=c, name=c + '_climbing', fix={'climbing': True}),
              dict(file=E + 'ode/takeoff_eom.py', cls=c, name=c + '_ground', fix={'climbing': False})]
SPECS += classes(E + 'ode/takeoff_eom.py', skip=('StallSpeed', 'DistanceRates', 'SumForces'))
SPECS += classes('mission/ode/altitude_rate.py') + classes('mission/ode/specific_energy_rate.py')
