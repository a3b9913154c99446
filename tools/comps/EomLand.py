exec(open('tools/comps/_common.py').read())
NAME = 'EomLand'
HEADER = """Takeoff and landing estimates: /repo/aviary/mission/energy_state/phases and
    /repo/aviary/mission/two_dof/ode/landing_eom.py."""
E = 'mission/energy_state/'
SPECS = classes(E + 'phases/simplified_landing.py') + classes(E + 'phases/simplified_takeoff.py') + classes('mission/two_dof/ode/landing_eom.py')
