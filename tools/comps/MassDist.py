NAME = 'MassDist'
HEADER = """Factors for distributed propulsion, /repo/aviary/subsystems/mass/flops_based/distributed_prop.py."""
D = 'subsystems/mass/flops_based/'
SPECS = [dict(file=D + 'distributed_prop.py', fun='distributed_engine_count_factor'),
         dict(file=D + 'distributed_prop.py', fun='distributed_thrust_factor')]
