"""Wrong versions of GASP based geometry."""
from mutgen import auto
K = ['partial', 'consistent', 'output', 'sign', 'consistent', 'missing', 'undeclared']
MUTANTS = auto('GGeom', 'C61', K, 14)
