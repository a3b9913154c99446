"""Wrong versions of the equations of motion."""
from mutgen import auto
K = ['partial', 'consistent', 'output', 'sign', 'consistent', 'missing', 'undeclared', 'consistent']
MUTANTS = auto('EomEnergy', 'C40', K, 16) + auto('EomTwo', 'C41', K, 16) \
    + auto('EomCond', lambda c: 'C34' if c.startswith('Flight') else 'C52', K, 12) + auto('EomLand', 'C53', K, 10)
