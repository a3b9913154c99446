exec(open('tools/comps/_common.py').read())
NAME = 'GaspSum'
HEADER = """Model of the GASP mass summation components, /repo/aviary/subsystems/mass/gasp_based/mass_summation.py."""
FUNCTIONS = {}
SPECS = classes('subsystems/mass/gasp_based/mass_summation.py')
