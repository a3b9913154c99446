"""Wrong versions of GASP based aerodynamics."""
from mutgen import auto
K = ['partial', 'consistent', 'output', 'sign', 'consistent', 'missing', 'undeclared']
MUTANTS = auto('GAero', 'C63', K, 14)
