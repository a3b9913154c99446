"""Wrong versions of the FLOPS based aerodynamics."""
from mutgen import auto
MUTANTS = auto('FAero', 'C60', ['partial', 'consistent', 'output', 'sign', 'missing', 'undeclared', 'consistent'], 36)
