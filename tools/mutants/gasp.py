"""Wrong versions of the GASP based masses."""
from mutgen import auto
K = ['partial', 'consistent', 'output', 'sign', 'consistent', 'missing', 'undeclared']
MUTANTS = auto('GaspSum', 'C38', K, 14) + auto('GaspSys', 'C56', K, 14) + auto('GaspStruct', 'C57', K, 14)
