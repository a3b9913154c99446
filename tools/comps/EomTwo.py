exec(open('tools/comps/_common.py').read())
NAME = 'EomTwo'
HEADER = """Two-degree-of-freedom equations of motion: /repo/aviary/mission/two_dof/ode and
    /repo/aviary/mission/solved_two_dof/ode.

    The option ground_roll decides which variables exist, so each value of it is its own component.  LBF_TO_N is
    computed by the units library; it is an option here, any value."""
T = 'mission/solved_two_dof/ode/'
D = 'mission/two_dof/ode/'
SPECS = classes(T + 'gamma_comp.py') + classes(T + 'groundroll_eom.py')
for f, c in [(T + 'unsteady_solved_eom.py', 'UnsteadySolvedEOM'), (D + 'flight_path_eom.py', 'FlightPathEOM'), (D + 'takeoff_eom.py', 'TakeoffEOM')]:
    SPECS += [dict(file=f, cls=c, name=c + '_flight', fix={'ground_roll': False}, params=('LBF_TO_N',)),
              dict(file=f, cls=c, name=c + '_ground', fix={'ground_roll': True}, params=('LBF_TO_N',))]
for f in ['accel_eom', 'flight_eom', 'taxi_eom', 'v_rotate_comp', 'constraints/flight_constraints']:
    SPECS += classes(D + f + '.py')
