"""Wrong versions of GASP based design loads and fuel masses."""
from mutgen import auto
K = ['partial', 'consistent', 'output', 'sign', 'consistent', 'missing', 'undeclared']
MUTANTS = auto('GLoad', 'C62', K, 14)
