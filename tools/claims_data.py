# ---------------------------------------------------------------- containers
C('C01', 'NamedValues behaves as an insertion-ordered last-write-wins map',
  'After any sequence of set_val / update / delete / clear calls on a NamedValues object, get_item(key) returns exactly the value and units of the last successful write of key that was not followed by a delete of key or a clear, and raises KeyError if there is none; `key in c`, len(c), keys() and iteration agree with it, each key appears once, and keys are iterated in the order of their first surviving write.',
  'every finite history of container operations, every key and value',
  'unit tests replay a handful of short histories; the claim is about all histories and every interleaving of overwrites and deletes',
  ['aviary/utils/named_values.py: NamedValues.set_val, get_item, update, delete, clear, __iter__, __contains__, __len__'],
  'Association-list model of the Python dict (insertion ordered), operations as a state machine with errors as values; refinement to a specification that scans the raw history backwards.')
C('C02', 'Failed container calls leave a precisely known state',
  'A set_val, get_val, get_item or delete that raises leaves the container unchanged; an update over an iterable that raises at its i-th entry leaves exactly the first i entries applied (update is not atomic) and nothing else changed.',
  'every container state, every argument list and every position of the failing entry',
  'failure can happen at every position of an arbitrarily long update',
  ['aviary/utils/named_values.py: NamedValues.set_val, update, delete, _check_units'],
  'Same model as C01; induction over the update list.')
C('C03', 'deepcopy isolates, copy aliases',
  'Two handles related by deepcopy() never observe one another: for every sequence of mutations issued on either handle, reading the other returns what it would have returned had those mutations not happened. For copy() the opposite holds: the two handles share the collection, so every mutation through one is observed through the other.',
  'every history of mutations split arbitrarily between the original and the copy',
  'aliasing defects appear only for particular later mutations',
  ['aviary/utils/named_values.py: NamedValues.copy, deepcopy'],
  'Small heap model (object -> mapping cell), handles as cell references; non-interference by induction for deepcopy, observational equality for copy, witness that copy violates isolation.')
C('C04', 'Unit conversion on read is lossless, path independent and shape preserving',
  'get_val in the stored units returns the stored value unchanged; reading in units v and writing back in v then reading in u gives the same number as reading directly in u; converting never changes the container kind or length of an iterable and keeps None entries None; a request for incompatible units raises and changes nothing, except for empty or all-None iterables, where it is accepted. Integer arrays are truncated on assignment, so only for them the round trip can lose data.',
  'all values (scalars, lists, tuples, arrays, None entries), all chains of compatible units with arbitrary scale and offset',
  'tests check fixed unit pairs on fixed numbers',
  ['aviary/utils/utils.py: wrapped_convert_units', 'aviary/utils/named_values.py: NamedValues.get_val'],
  'Units as dimension, scale and offset over the rationals (OpenMDAO convert_units: (x + offset1) * factor1 / factor2 - offset2); structural recursion over value shapes.')
C('C05', 'AviaryValues never stores an entry that contradicts the metadata',
  'After any sequence of AviaryValues.set_val / update / delete calls, every stored entry whose key is in the metadata has units compatible with the metadata units and a value that passes the metadata type check; a rejected call stores nothing.',
  'every history of calls, every metadata table, every value',
  'an invariant over all histories',
  ['aviary/utils/aviary_values.py: AviaryValues.set_val, _check_units_compatibility', 'aviary/utils/utils.py: check_type, cast_type'],
  'Value universe mirroring the Python kinds used (bool, int, float, str, enum, None, list, tuple, array); invariant by induction over the history.')
C('C06', 'The type check accepts exactly the values whose every leaf has a declared type',
  'For list, tuple and scalar values check_type accepts iff the container kind is allowed and every leaf, at any nesting depth, has one of the declared types, with bool accepted only where bool is declared. For numpy arrays only the first leaf is inspected.',
  'values of unbounded nesting depth and length, every type set',
  'unbounded nesting; tests use depth one or two',
  ['aviary/utils/utils.py: check_type'],
  'Nested value type; specification as an inductive AllLeaves predicate; iff by nested induction; array exception shown with a witness.')
C('C07', 'Type casting is idempotent and only ever yields declared types or the original value',
  'cast_type returns conforming values unchanged; a string for an enum option given by value or by (case-insensitive) member name is cast to that member and any other string raises; a cast scalar is either a declared type or the original value and casting it twice equals casting once; an iterable for a single non-enum type is cast element by element or left alone. Not guaranteed, with witnesses: element-wise casting of a list of strings for an enum option (it collapses to the first member), strict casting of strings in a bool list, lossless casting of a float to an int option.',
  'every value and every type list',
  'the set of values is unbounded; the failing branch needs a list of strings',
  ['aviary/utils/utils.py: cast_type, enum_setter'],
  'Branch-by-branch model of cast_type and enum_setter; negative parts are shown by witnesses (the enum loop returns inside the first string element).')
# ---------------------------------------------------------------- text formats
C('C08', 'CSV data tables survive write then read',
  'Writing a table with write_data_file and reading the file back with read_data_file yields the same variable names in the same order, the same units, the same column values and the same input/output labels.',
  'every table with well-formed names, units and non-empty equal-length columns, any column widths, any comments',
  'unbounded tables; the writer pads, the reader splits on a regular expression with look-ahead',
  ['aviary/utils/csv_data_file.py: write_data_file, read_data_file'],
  'Character-level model of header/row rendering with padding and of the reader (comment strip, look-ahead split, header parse); number printing/parsing as parameters with a round-trip hypothesis.')
C('C09', 'CSV reader keeps every number in its own column',
  'When every data row has one numeric cell per header cell and header names are distinct after alias resolution, the value list returned for a variable is exactly its column, in row order, also when unrecognised columns are skipped. With a blank cell or a repeated header name the alignment is lost without an error.',
  'all headers, all metadata filters, all rows',
  'column alignment depends on arbitrary subsets of skipped columns',
  ['aviary/utils/csv_data_file.py: read_data_file'],
  'Token-level model of the reader; column specification by index; witnesses for blank cells and repeated names.')
C('C10', 'Metadata merge is a conflict-checked union',
  'merge_meta_data of any list of metadata dictionaries succeeds exactly when every definition of every variable agrees (up to the numeric tolerance, recursively) with the first definition of that variable in the list; the result then holds exactly the union of the variables, each with its first definition; a disagreement raises ValueError, an empty list IndexError.',
  'any number of dictionaries of any size',
  'pairwise conflicts among arbitrarily many dictionaries',
  ['aviary/utils/merge_variable_metadata.py: merge_2_meta_data_dicts, merge_meta_data, almost_equal'],
  'Association maps; fold; specification by first definer and pairwise agreement.')
C('C11', 'Variable hierarchy merge loses and changes nothing',
  'For hierarchies in which no name is a variable in one and an inner class in another: merge_hierarchies reports a conflict exactly when some path has two different strings, and otherwise yields exactly the union of the paths of all inputs, each with its original variable name. A conflict is reported even with mixed names.',
  'class trees of any depth and width, any number of them',
  'unbounded trees',
  ['aviary/utils/merge_hierarchies.py', 'aviary/utils/compare_hierarchies.py'],
  'Rose-tree model of nested classes; path-lookup specification.')
C('C12', 'String-to-data conversion classifies every token',
  'convert_strings_to_data turns each token, stripped of brackets, into an integer exactly when it follows the integer grammar, into a float exactly when it follows the float grammar and contains a point, into a bool exactly when it spells true or false, and otherwise keeps it; decimal notation is read back to its value; a single token gives a scalar and a list gives a list of the same length and order.',
  'every token list',
  'unbounded strings',
  ['aviary/utils/functions.py: convert_strings_to_data'],
  'Character-level model; grammar specification separate from the implementation.')
# ---------------------------------------------------------------- preprocessors
C('C13', 'Fuel capacity preprocessing keeps tank capacities consistent with the total',
  'With FLOPS masses and a given total, preprocess_fuel_capacities succeeds exactly when the tank capacities that were not given can be completed with non-negative values so that wing, fuselage and auxiliary capacity add up to the total, and changes nothing; without a total it only sets absent fuselage and auxiliary capacities to zero; it is idempotent.',
  'every subset of provided capacities and every value',
  'sixteen provided/absent patterns times all values',
  ['aviary/utils/preprocessors.py: preprocess_fuel_capacities'],
  'Option-valued inputs; decision procedure with errors; case analysis.')
C('C14', 'Passenger and cargo preprocessing yields a self-consistent payload',
  'With FLOPS masses and non-negative counts, total passengers equal the sum of the class counts for design and for the mission afterwards; given class counts are kept; overbooking is reported exactly when it happens (VERBOSE) and a replaced mission total is reported (BRIEF). With GASP masses the cargo values follow the documented table, flown and design cargo never exceed the maximum, and given maximum and design values are kept.',
  'every combination of provided and defaulted passenger classes and cargo inputs',
  'combinations of provided/absent inputs and all values',
  ['aviary/utils/preprocessors.py: preprocess_crewpayload'],
  'Decision-procedure model over integers with provided flags.')
C('C15', 'Crew sizing rules are total, monotone and respect explicit input',
  'Flight crew, flight attendants and galley crew derived from the passenger count are non-decreasing in the passenger count, meet the documented ratios (at least one attendant per 50 passengers), and non-negative given values are kept; the cabin crew, if given, becomes attendants plus galley crew; the step is idempotent.',
  'every passenger count',
  'unbounded integer domain with step functions',
  ['aviary/utils/preprocessors.py: preprocess_crewpayload'],
  'Integer functions with floor division; monotonicity lemmas.')
C('C16', 'Engine count reconciliation keeps wing and fuselage engines consistent with the total',
  'For every engine model with non-negative counts, after preprocess_propulsion the number of wing plus fuselage engines equals the number of engines, except exactly when one engine has no mount, none was put on the wing and some on the fuselage; the total is the larger of the given total and the given mounts, given mounts are never reduced, the step is idempotent, and the aircraft totals are off by the number of exceptional models.',
  'all counts and all subsets of provided values',
  'unbounded integers with parity branches',
  ['aviary/utils/preprocessors.py: preprocess_propulsion'],
  'Branch-by-branch integer model; exact characterisation of inputs for which it fails, with witness.')
C('C17', 'Engine vectorisation gives one entry per engine model with the documented priority',
  'After preprocess_propulsion every engine/nacelle variable that takes one value per engine has one entry per engine model, and entry i comes from engine model i if it defines the variable, else from the aircraft inputs (unless these hold an empty list), else from the metadata default; repeating the step changes nothing. Variables that take a list per engine are joined in order when every model has its own list.',
  'any number of engine models, any pattern of definitions',
  'unbounded number of engines and variables',
  ['aviary/utils/preprocessors.py: preprocess_propulsion'],
  'List model; specification per index.')
# ---------------------------------------------------------------- engine deck
C('C18', 'Engine deck acceptance and the columns of an accepted deck',
  'Exact acceptance condition of _check_data for every set of columns and values. The intended condition, all mandatory columns present and net thrust equal to gross thrust minus ram drag, is false of the code: a deck is accepted exactly when at least one mandatory column is present and no row agrees within tolerance. An accepted table has one entry per row in every column, and its thrust is net (or gross minus ram) plus tailpipe thrust.',
  'every set of columns, all values, any number of rows',
  'all subsets of columns times all values',
  ['aviary/subsystems/propulsion/engine_deck.py: EngineDeck._check_data'],
  'Finite set-of-columns decision procedure; refuted where the required-variable test is inverted.')
C('C19', 'Packing an engine deck into the 3-D grid keeps every data point at its own flight condition',
  'Given a deck sorted by Mach number and altitude whose distinct values are farther apart than the tolerances, with at least two rows per flight condition, two altitudes per Mach number (the last excepted) and no more altitudes at the last Mach number than elsewhere, _count_data and _pack_data place each row exactly once in the cell of its Mach number and altitude and record the number of rows of each cell, provided the last flight condition is not the only largest one; otherwise they raise IndexError. Each condition is necessary.',
  'every sorted deck of any size',
  'index bookkeeping over decks of unbounded, ragged shape',
  ['aviary/subsystems/propulsion/engine_deck.py: EngineDeck._count_data, _pack_data'],
  'Loop-by-loop model with explicit index errors; refinement to grouping by Mach and altitude; witnesses for single-point conditions and for a largest last group.')
C('C20', 'Throttle normalisation maps each flight condition onto [0, 1] preserving order',
  'normalize maps any column with two different values by an increasing affine map onto [0, 1] reaching both ends, and a constant column to nan; hybrid throttle keeps signs and scales each sign by its own extreme; local normalisation of a faithfully packed deck is, row for row, each flight condition normalised on its own.',
  'all decks',
  'all real columns',
  ['aviary/subsystems/propulsion/engine_deck.py: _normalize_throttle, normalize'],
  'List model over reals/rationals.')
C('C21', 'Reference thrust, scaled thrust and scale factor agree after preprocessing',
  'For every provided subset of reference thrust, scaled thrust and scale factor: _set_reference_thrust accepts exactly the stated inputs; afterwards scaled = scale factor x reference; given reference thrust and scale factor are kept; a given scaled thrust is kept or moved by at most the comparison tolerance; a missing reference is the largest sea-level static thrust of the deck; a second pass changes nothing.',
  'every subset and every real value',
  'eight patterns times all reals',
  ['aviary/subsystems/propulsion/engine_deck.py: EngineDeck._set_reference_thrust'],
  'Decision procedure over optional reals.')
# ---------------------------------------------------------------- mission assembly
C('C22', 'Reserve phases are separated from main phases without loss',
  'separate_reserve_phases accepts exactly the phase lists in which no main phase follows a reserve phase, and then main ++ reserve is the list of phases that carry user options, in order.',
  'phase lists of any length and any reserve flags',
  'all orders of flags',
  ['aviary/mission/utils.py: separate_reserve_phases'],
  'List model; iff theorem.')
C('C23', 'Fuel bookkeeping receives both ends of the reserve mission',
  'The reserve fuel component is connected to the initial mass of the first reserve phase and to the final mass of the last one exactly when there are at least two reserve phases; with exactly one reserve phase the initial-mass connection is lost.',
  'phase lists of any length',
  'number of reserve phases is unbounded and the defect shows only at exactly one',
  ['aviary/subsystems/energy/energy_builder.py: get_post_mission_bus_variables'],
  'Dictionary model; proved for two or more reserve phases, refuted for exactly one.')
C('C24', 'Phase linking links each consecutive pair exactly when neither end forbids it',
  'A state (mass, distance, time, altitude, Mach or velocity) is linked across two consecutive phases exactly when the phase-type, optimise and pin options of both ends say so; no pair is linked twice in one call; the link is a connection or a scaled constraint as requested; the fixed initial value of a linked phase is released exactly in the stated cases.',
  'all phase lists and all option values',
  'combinatorial',
  ['aviary/core/aviary_group.py: link_phases'],
  'Decision table model over option values including the falsy value 0.0; iff theorems over phase lists of any length.')
C('C25', 'Composite objective weights are normalised',
  'add_composite_objective turns any non-empty list of well-formed objective descriptions (number and order arbitrary) into one expression whose value is the weighted mean of the described outputs, with inputs connected in order; it accepts exactly the stated lists; the reference is chosen only for a single objective; add_composite_objective_adv normalises each weight level. Where the sum of weights is zero the result is an error.',
  'all argument lists',
  'unbounded lists and all reals',
  ['aviary/core/aviary_problem.py: add_composite_objective'],
  'Parser over argument forms; rational/real arithmetic.')
C('C26', 'The payload-range runs use the loads and gross masses of the four points',
  'run_payload_range accepts exactly the stated problems; its table then consists of the four points with the described off-design inputs: design load, reduced load that leaves room for full tanks exactly when the aircraft cannot lift full fuel with full payload, and the empty ferry flight at empty mass plus fuel; run_off_design_mission turns its arguments into exactly the stated inputs or errors.',
  'all masses',
  'all real inputs; a branch leaves a variable unbound',
  ['aviary/core/aviary_problem.py: run_payload_range'],
  'Decision procedure with explicit unbound-variable errors; mission results as oracle.')
C('C27', 'Saved sizing results reload to the same inputs',
  'For every input table of savable values save_results writes a file that _read_sizing_json reads; every known name then holds the same scalar, enum member (every member of every declared enumeration) or list in the same units, gross masses hold the sized values, unknown names are dropped and nothing is added; reload succeeds exactly when the inputs named Mission.GROSS_MASS; what saving leaves behind in the inputs is characterised.',
  'all input tables',
  'unbounded tables with mixed value kinds',
  ['aviary/core/aviary_problem.py: save_results / _read_sizing_json'],
  'Encode/decode model over the value universe of C05.')
C('C28', 'Mission fuel bookkeeping balances',
  'Fuel burned, reserve fuel (burned + margin + additional), the mass residual constraint and block fuel computed after the mission satisfy the fuel balance: residual zero iff the fuel loaded equals mission fuel plus total reserve, and then the capacity constraint holds iff that fuel plus the unusable fuel fits the tanks. With exactly one reserve phase the reserve fuel ignores the mass at its start.',
  'all masses and margins',
  'identity over all reals and all option patterns',
  ['aviary/subsystems/energy/fuel_summation.py: FuelSummationGroup'],
  'Real-valued component graph with promotion by name.')
# ---------------------------------------------------------------- numeric helpers
C('C30', 'The sigmoid blend stays in (0,1), is monotone and has the declared derivative',
  'For an array argument and mu <> 0 every element of sigmoidX lies in [0,1), equals the logistic function where it is not cut off, is monotone in x, is 1/2 at x0, satisfies the reflection identity, and dSigmoidXdx is its true derivative everywhere except at the cut-off point; mu = 0 is rejected. Scalar arguments behave the same only for small mu, and the scalar derivative always raises.',
  'all real x, x0 and mu <> 0',
  'calculus over all reals',
  ['aviary/utils/math.py: sigmoidX, dSigmoidXdx'],
  'Reals with Coquelicot; guard of the array and scalar branches modelled.')
C('C31', 'Smooth max/min bracket the true max/min and have correct derivatives',
  'max(x,b) <= smooth_max(x,b,mu) <= max(x,b)+ln 2/mu, min(x,b)-ln 2/mu <= smooth_min(x,b,mu) <= min(x,b) and the derivative helpers equal the true derivatives.',
  'all reals, all mu>0',
  'bounds and derivatives over all reals',
  ['aviary/utils/math.py: smooth_max, smooth_min, d_smooth_max, d_smooth_min'],
  'Coquelicot.')
C('C32', 'The smooth integer functions fix the integers, are monotone and have correct derivatives',
  'sin_int and sin_int4 map integers as documented, are non-decreasing and their derivative helpers equal the true derivatives.',
  'all reals, all integers',
  'calculus over all reals',
  ['aviary/utils/math.py: sin_int, sin_int4, dydx_sin_int, dydx_sin_int4'],
  'Coquelicot.')
# ---------------------------------------------------------------- components
C('C33', 'Engine performance scaling has exact partials',
  'For every input the partial derivatives returned by the engine scaling and sizing components equal the true derivatives of their outputs.',
  'all real inputs',
  'derivative equality at all points; finite-difference tests sample a few',
  ['aviary/subsystems/propulsion/engine_scaling.py', 'aviary/subsystems/propulsion/engine_sizing.py', 'aviary/subsystems/propulsion/propulsion_premission.py'],
  'Coquelicot is_derive for each input.')
C('C34', 'Flight-condition conversions are mutually inverse and have exact partials',
  'TAS, EAS and Mach input modes give the same dynamic pressure for the same flight condition, converting back and forth returns the original speed, and every declared partial equals the true derivative.',
  'all positive densities, speeds of sound and all speeds',
  'all reals',
  ['aviary/subsystems/atmosphere/flight_conditions.py: FlightConditions'],
  'Coquelicot.')
C('C35', 'Atmosphere component chain rule',
  'Each derivative output and partial of the atmosphere component equals the true derivative with respect to the altitude input in both geodetic and geopotential mode.',
  'all altitudes, all table coefficients',
  'all reals and all spline coefficients',
  ['aviary/subsystems/atmosphere/atmosphere.py: AtmosphereComp'],
  'Per-interval cubic model; refuted for the second derivative of the speed of sound in geodetic mode.')
C('C36', 'FLOPS fuel capacity components have exact partials and conserve capacity',
  'Wing, fuselage and auxiliary fuel capacities have exact partials and add up to the total as documented.',
  'all positive geometry', 'all reals',
  ['aviary/subsystems/mass/flops_based/fuel_capacity.py'],
  'Coquelicot.')
C('C37', 'FLOPS mass summation is a conservation law',
  'The chain of FLOPS mass summation components is linear with the declared partials, and the zero-fuel mass equals the sum of every leaf mass exactly once, in both the standard and the alternate path.',
  'all leaf masses, any number of engine types', 'a sum over many leaves can omit or double count one only visible for particular values',
  ['aviary/subsystems/mass/flops_based/mass_summation.py'],
  'Real-valued model; expansion to leaves.')
C('C38', 'GASP mass summation is a conservation law',
  'The GASP mass summation components have the declared partials, and the zero-fuel mass and the useful load equal the sum of every leaf mass exactly once; with totals supplied by the caller, each other total is still the sum of its parts.',
  'all leaf masses', 'as C37',
  ['aviary/subsystems/mass/gasp_based/mass_summation.py'],
  'Real-valued model; expansion to leaves.')
C('C39', 'Throttle allocation conserves the aggregate throttle',
  'For every number of engine types the allocated throttles of a node sum to the aggregate throttle, and the declared partials equal the true derivatives.',
  'any number of nodes and engine types, all reals', 'unbounded dimension',
  ['aviary/subsystems/propulsion/throttle_allocation.py: ThrottleAllocator'],
  'Lists of reals.')
C('C40', 'Energy-state equations of motion are mutually consistent with exact partials',
  'With the thrust equal to the required thrust, the specific energy rate and altitude rate components reproduce the commanded climb rate and acceleration; all declared partials equal the true derivatives; range rate satisfies the velocity triangle.',
  'all reals with non-zero speed and mass', 'all reals',
  ['aviary/mission/ode/altitude_rate.py', 'aviary/mission/ode/specific_energy_rate.py', 'aviary/mission/energy_state/ode/required_thrust.py', 'aviary/mission/energy_state/ode/range_rate.py', 'aviary/mission/energy_state/ode/takeoff_eom.py', 'aviary/mission/energy_state/ode/landing_eom.py'],
  'Coquelicot.')
C('C41', 'Two-degree-of-freedom flight path equations have exact partials',
  'Every partial returned by the flight-path EOM equals the true derivative in the airborne and the ground-roll configuration, and altitude and distance rates satisfy the velocity triangle.',
  'all reals away from singularities', 'all reals',
  ['aviary/mission/two_dof/ode/flight_path_eom.py: FlightPathEOM', 'aviary/mission/two_dof/ode/flight_eom.py', 'aviary/mission/two_dof/ode/takeoff_eom.py', 'aviary/mission/two_dof/ode/accel_eom.py', 'aviary/mission/two_dof/ode/taxi_eom.py', 'aviary/mission/two_dof/ode/v_rotate_comp.py', 'aviary/mission/two_dof/ode/constraints/flight_constraints.py', 'aviary/mission/solved_two_dof/ode/gamma_comp.py', 'aviary/mission/solved_two_dof/ode/groundroll_eom.py', 'aviary/mission/solved_two_dof/ode/unsteady_solved_eom.py'],
  'Coquelicot.')
C('C42', 'Breguet cruise range is additive over segments with exact partials',
  'Cruise range is the initial range plus the sum of segment ranges, is increasing for decreasing mass, and its partials for every node pair equal the true derivatives, for any number of nodes; cruise time should be the sum of segment times.',
  'any number of nodes, all positive speeds, masses and fuel flows', 'unbounded number of nodes',
  ['aviary/mission/two_dof/ode/breguet_cruise_eom.py: RangeComp, ElectricRangeComp'],
  'Lists of reals; induction on nodes; the cruise-time sentence is refuted for varying speed.')
C('C43', 'Geopotential altitude conversion terminates and inverts',
  'Geodetic to geopotential conversion is strictly increasing and inverted by its closed form; the fixed-point iteration used on engine decks terminates within its tolerance.',
  'all altitudes above minus the planet radius', 'all reals; loop termination',
  ['aviary/subsystems/propulsion/utils.py: convert_geopotential_altitude', 'aviary/subsystems/atmosphere/atmosphere.py: AtmosphereComp.compute'],
  'Reals; loop as fuelled recursion with a termination bound.')

# ---------------------------------------------------------------- notes
N('C02', 'Finding: update() is not atomic (witness C02_update_atomic_refuted).')
N('C03', 'Finding: copy() shares the mapping, so a change through either handle shows in the other (C03_copy_isolates_refuted).')
N('C04', 'Findings: integer arrays lose fractions on conversion; empty or all-None iterables accept incompatible units.')
N('C05', 'A variable whose metadata has types None can never be set. Empty-string units pass the compatibility check.')
N('C06', 'Finding: only the first leaf of an array is inspected (C06_array_leaves_checked_refuted).')
N('C07', 'Findings: lists for enum options collapse to the first member, lists for bool options use truthiness, floats for int options are truncated, (int, float) list casting is not idempotent.')
N('C08', 'Hypotheses: names and units are words without white space, commas, semicolons, # or parentheses and are not the words input/output; one name is not a number; number printing round-trips. Findings: units with parentheses (lbm/(ft*s)) are written but raise on reading; a unitless column is read in metadata units; comments with a line break would be read as data (outside the model).')
N('C09', 'Findings: a blank cell shifts the rest of the row (L98), a repeated header name misaligns later columns (L184-185, L202-204).')

N('C22', 'Finding: any reserve flag other than the object False (0, None, numpy.bool_(False)) makes a reserve phase; phases without user_options are dropped from both lists.')
N('C23', 'Finding: with exactly one reserve phase energy_builder.py L90 overwrites the entry written at L84, so reserve_fuel_burned.mass_initial stays unconnected (C23_single_reserve_phase_refuted).')
N('C28', 'End to end from the mission description and mass timeseries. Uses the standard real-number axioms. Finding: single reserve phase, see C23.')

C('C44', 'The tanh integer blend stays within its unit interval and has the declared derivative',
  'smooth_int_tanh(x) lies strictly between floor(x) and floor(x)+1, is strictly increasing for mu > 0 and has derivative d_smooth_int_tanh at every non-integer x; a complex step through it gives slope one instead of the declared derivative.',
  'all real x and mu', 'calculus over all reals; floor makes it piecewise',
  ['aviary/utils/math.py: smooth_int_tanh, d_smooth_int_tanh'],
  'Reals and pairs for complex numbers.')
N('C30', 'Findings: the scalar branch of sigmoidX multiplies by mu in its cut-off test (L49), so large mu gives 0 (C30_scalar_call_refuted); dSigmoidXdx of a scalar raises UnboundLocalError because dtype is unset (C30_scalar_derivative_refuted); dSigmoidXdx with an x0 array raises as soon as one element is cut off (C30_array_threshold). Array arguments only otherwise.')
N('C31', 'Real-number semantics: overflow of exp for large mu*x in smooth_min is not modelled.')
N('C32', '')
N('C44', 'Finding: complex-step differentiation of smooth_int_tanh is wrong because the imaginary part is moved into the floor (L222).')

N('C10', 'Findings: the tolerance is relative to the second value only, so acceptance depends on the order of the list (C10_order_independence_refuted); an empty list raises IndexError. Equality of other objects (py_eq) is a parameter assumed reflexive.')
N('C11', 'Findings: a name that is a variable in one hierarchy and a class in another is not detected and paths are lost (C11_kind_clash_refuted); deepcopy of a class is the class, so the merge changes the classes it was given, also transitively (C11_inputs_unchanged_refuted, heap model).')

C('C45', 'The vehicle deck reader finds name, values and units in every well-formed line',
  'For every line made of comma-separated cells with arbitrary white space, empty cells and an optional comment, parse_inputs finds exactly the non-empty items; name, values and optional units set that variable to the converted values in order with those units or the metadata units; lines are handled in order and lines without data leave no trace.',
  'all lines, any number of cells, all metadata and unit predicates',
  'unbounded text; white space and empty cells in any place',
  ['aviary/utils/process_input_decks.py: parse_inputs'],
  'Character-level model; line generator as specification.')
N('C12', 'Finding: a number in scientific notation without a point (1e5, 1e-05 as printed by str) stays a string (C12_scientific_notation_refuted). Values are exact rationals; rounding to machine numbers is not modelled.')
N('C13', 'Equality of capacities is exact (rational) equality.')
N('C14', 'Findings: a given design total that is replaced is never reported because design_pax_sum_provided is never set (C14_design_override_reported_refuted); in a sizing mission flown cargo is only made equal to design cargo when all three values were given, so a second pass changes the result of the first (C14_sizing_cargo_equal_refuted); with GASP masses a given economy count is overwritten.')
N('C15', '')
N('C16', 'Findings: total 3 with 2 fuselage engines leaves the third engine unmounted (C16_always_consistent_refuted); the odd-wing-count warning looks at the count before distribution (C16_odd_wing_warning_refuted).')
N('C17', 'Findings: a list in the aircraft inputs for a list-per-engine variable (wing_locations, additional_mass_fraction) is taken whole by every engine model and grows on every pass (C17_multidimensional_aircraft_list_refuted); an empty list shifts entries; a list default mixed with numbers raises ValueError.')
N('C45', 'Findings: a line with a name only, or name and units only, raises IndexError; a text value that is a unit name is taken for the units; unknown names without a colon are dropped silently.')

N('C18', 'Findings: the required-variable test is inverted (L532-541: only a deck with none of the mandatory columns is rejected, C18_mandatory_columns_refuted); the thrust comparison is inverted (L471: agreeing decks are rejected, C18_thrust_check_inverted); ignore_negative_thrust=True raises IndexError for every ordinary deck (L544-547, C18_ignore_negative_thrust_fails).')
N('C19', 'Findings: one-row flight conditions swallow a row of the next condition, a last Mach number with more altitudes loses them, a largest last condition raises IndexError (C19_every_row_kept_refuted); sorting is exact but grouping is by tolerance, so Mach numbers closer than 0.01 split a flight condition (C19_close_mach_numbers_refuted). Modelled for INTERPOLATION_SORT mach; np.lexsort itself is not modelled (a sorted deck is the hypothesis).')
N('C20', 'Finding: with a one-row flight condition the locally normalised column has a different length from the deck (C20_local_length_refuted). nan is modelled as a missing value.')
N('C21', 'Finding: a given scaled thrust is changed silently (below DEBUG verbosity) when it differs from scale factor x reference by less than the tolerance (C21_scaled_thrust_kept_refuted). Division by a zero reference is an error in the model (Python float; inf for numpy).')

N('C24', 'Findings: a phase whose initial value is pinned at 0.0 is treated as not pinned (C24_pinned_not_linked_refuted); opt2 of the analytic loops is unbound for the first pair or left over from the regular loop (C24_always_succeeds_refuted, C24_release_own_option_refuted); two consecutive Breguet phases are linked initial to initial (C24_consecutive_analytic_refuted).')
N('C25', 'Findings: an empty argument list gives an empty expression (C25_no_arguments_refuted); malformed arguments are replaced by a default objective instead of being rejected, and a text weight fails with TypeError (C25_malformed_rejected_refuted, C25_malformed_replaced, C25_wrong_weight_kind_refuted); a negative weight total turns the direction round (C25_direction_refuted); the default model name need not exist (C25_default_model_refuted); two different outputs can share one input name (C25_inputs_distinct_refuted); add_composite_objective_adv connects from the expression to the output, the wrong way round, and builds invalid input names (C25_adv_direction_refuted, C25_adv_names_refuted); a mass objective changes direction when it becomes part of a composite (C25_same_direction_refuted).')
N('C26', 'Findings: fuel_3 is unbound when the aircraft can lift full fuel with full payload (C26_skipped_point_refuted); GASP without a cargo mass raises TypeError (C26_gasp_refuted); the cruise duration bound of the original problem is doubled because the copy is shallow (C26_original_unchanged_refuted); a problem that did not converge is not declined when quiet (C26_unconverged_declined_refuted); the ferry gross-mass bound is the design gross mass (C26_ferry_bound_refuted); rounding of seats loses passengers (C26_seats_refuted). Mission runs are an oracle.')
N('C27', 'Findings: a list of enums reloads as its first member (C27_enum_list_refuted); saving converts lists of the problem in place (C27_inputs_unchanged_refuted); an empty list makes the whole table unsavable (C27_empty_list_refuted); paths come back as text and arrays as lists (C27_kind_kept_refuted); a design gross mass among the inputs is saved as the mission gross mass (C27_design_gross_refuted); a problem naming only the design gross mass cannot be reloaded (C27_reload_refuted); a gross mass given as a list cannot be read (C27_gross_list_refuted); a list with a path behind a text cannot be saved (C27_later_path_refuted). The JSON text itself is not modelled.')

# ---------------------------------------------------------------- component masses
Q_OPT = 'all real inputs in the stated domain (positive lengths, areas, masses where a power, root or quotient needs it), all option values'
W_OPT = 'derivative of a real function at every point of an unbounded domain; finite differences and complex step sample points and have rounding error'
C('C46', 'Declared partials of FLOPS systems and equipment masses are exact',
  'For every system and equipment mass component (air conditioning, APU, avionics, electrical, furnishings, hydraulics, instruments, surface controls; standard and alternate) every output is assigned, only declared partials are assigned, and for every output and input the partial that OpenMDAO uses is the derivative of what compute assigns.',
  Q_OPT, W_OPT,
  ['aviary/subsystems/mass/flops_based/air_conditioning.py', 'aviary/subsystems/mass/flops_based/apu.py', 'aviary/subsystems/mass/flops_based/avionics.py', 'aviary/subsystems/mass/flops_based/electrical.py', 'aviary/subsystems/mass/flops_based/furnishings.py', 'aviary/subsystems/mass/flops_based/hydraulics.py', 'aviary/subsystems/mass/flops_based/instruments.py', 'aviary/subsystems/mass/flops_based/surface_controls.py'],
  'Component semantics of Comp.v; model text produced by tools/py2coq.py from the Python syntax tree; Coquelicot derivatives.')
C('C47', 'Declared partials of FLOPS payload, crew and operating item masses are exact',
  'For every payload, crew, container, passenger service, engine oil, unusable fuel, paint, canard, fin and empty margin component the partial that OpenMDAO uses is the derivative of what compute assigns, for every output and input.',
  Q_OPT, W_OPT,
  ['aviary/subsystems/mass/flops_based/cargo_containers.py', 'aviary/subsystems/mass/flops_based/crew.py', 'aviary/subsystems/mass/flops_based/empty_margin.py', 'aviary/subsystems/mass/flops_based/engine_oil.py', 'aviary/subsystems/mass/flops_based/paint.py', 'aviary/subsystems/mass/flops_based/passenger_service.py', 'aviary/subsystems/mass/flops_based/payload.py', 'aviary/subsystems/mass/flops_based/unusable_fuel.py'],
  'As C46.')
C('C48', 'Declared partials of FLOPS airframe masses are exact',
  'For every fuselage, tail, fin, canard, landing gear, landing mass and wing component without per-engine arrays the partial that OpenMDAO uses is the derivative of what compute assigns, for every output and input.',
  Q_OPT, W_OPT,
  ['aviary/subsystems/mass/flops_based/fuselage.py', 'aviary/subsystems/mass/flops_based/horizontal_tail.py', 'aviary/subsystems/mass/flops_based/vertical_tail.py', 'aviary/subsystems/mass/flops_based/fin.py', 'aviary/subsystems/mass/flops_based/canard.py', 'aviary/subsystems/mass/flops_based/landing_gear.py', 'aviary/subsystems/mass/flops_based/landing_mass.py', 'aviary/subsystems/mass/flops_based/wing_common.py'],
  'As C46.')
C('C49', 'Declared partials of FLOPS fuel system, fuel capacity and engine control masses are exact',
  'For the fuel system, fuel capacity and engine control components the partial that OpenMDAO uses is the derivative of what compute assigns, for every output and input.',
  Q_OPT, W_OPT,
  ['aviary/subsystems/mass/flops_based/fuel_system.py', 'aviary/subsystems/mass/flops_based/fuel_capacity.py', 'aviary/subsystems/mass/flops_based/engine_controls.py', 'aviary/subsystems/mass/flops_based/distributed_prop.py'],
  'As C46.')
C('C50', 'Mass scalers scale',
  'The mass computed by a component that has a mass scaler is proportional to the scaler: scaler t gives t times the mass at scaler one, for all other inputs.',
  'all real inputs and scalers, all option values', 'all reals; a test fixes the scaler at a few values',
  ['aviary/subsystems/mass/flops_based'],
  'As C46.')
C('C51', 'Masses of a positive aircraft are positive',
  'A FLOPS mass component with positive inputs and positive option numbers gives a positive mass.',
  'all positive real inputs and options', 'all reals',
  ['aviary/subsystems/mass/flops_based'],
  'As C46.')
N('C36', 'Exact partials of the four components are the C49 theorems. Finding: the components form a cycle that returns whatever total it started from (C36_total_undetermined); the total is determined only if the user supplies it. Groups run each component once in order.')
N('C37', 'Conservation holds for any number of engine types. Groups run each component once in order.')
N('C38', 'The nine GASP summation components run once in order, as in C37. C38_override: when the caller supplies some totals, every other total is still the sum of its parts, read from the final values.')
N('C46', 'The hydraulics partial with respect to system pressure holds a constant with 16 digits: proved within a relative error of 1e-16 (C46_hydraulics_pressure). AntiIcingMass (per-engine arrays) is not in this claim. Domains are stated in each theorem.')
N('C47', 'Finding: TransportUnusableFuelMass declares the output MAX_CAPACITY_VOLUME and never assigns it (C47_unusable_outputs_refuted).')
N('C48', 'WingBendingMass is proved on the range where its denominators are positive. HorizontalTailMass with a number of tails other than 0 or 1 executes raise of a string, a TypeError; the theorem says nothing about that case. Not covered: BWBAftBodyMass, wing_detailed.py, wing_simple.py.')
N('C49', 'Finding: the partial of the standard fuel system mass with respect to capacity uses the number of engines instead of the distributed engine count factor, so it is wrong above four engines (C49_TransportFuelSystemMass_refuted).')
N('C50', 'All mass scaler inputs of the modelled components.')
N('C51', 'Components with differences or logarithms are left out.')
C('C52', 'Unsteady flight conditions agree with the steady ones and report true rates',
  'With the speed given as TAS, EAS or Mach, the unsteady component computes the same speeds and dynamic pressure as the steady one, the rates it reports are the time derivatives of those speeds, and every partial OpenMDAO uses is the true derivative.',
  'all positive densities and speeds of sound, all speeds and rates, any number of nodes', 'all reals, all node counts',
  ['aviary/mission/solved_two_dof/ode/unsteady_solved_flight_conditions.py: UnsteadySolvedFlightConditions'],
  'Coquelicot; refuted for the EAS rate and for the pairs that are not assigned or not declared, which are listed in the theorems.')
C('C53', 'Takeoff and landing estimates have exact partials and consistent kinematics',
  'For the simplified takeoff and landing and for the landing segments every partial OpenMDAO uses is the true derivative; the maximum lift at the stall speed carries the weight; the descent angle and glide distance agree with sink rate and altitude; the ground roll is positive; takeoff conserves mass.',
  'all positive masses, areas, densities, lift coefficients and speeds in the stated ranges', 'all reals',
  ['aviary/mission/energy_state/phases/simplified_takeoff.py', 'aviary/mission/energy_state/phases/simplified_landing.py', 'aviary/mission/two_dof/ode/landing_eom.py'],
  'Coquelicot.')
N('C34', 'Stated for any number of nodes: a partial is exact on its own node and the output does not depend on other nodes.')
N('C40', 'In ground mode DistanceRates and SumForces declare an output that compute never assigns (C40_ground_unassigned). range_rate raises AnalysisError when the climb rate reaches the speed; the theorem is about the other case.')
N('C41', 'Stated for any number of nodes. Components with clipped normal force are proved away from the clipping point.')
N('C52', 'Findings: the EAS rate formula is not the time derivative (C52_eas_rate_refuted); in EAS mode partials with respect to density and EAS are declared and never assigned, in Mach mode partials with respect to speed of sound and Mach are not declared (C52_partials_refuted). All other pairs are exact.')
N('C53', 'The glide theorem needs a sink rate below the glide speed (asin).')
C('C54', 'The control point fit solves the least squares problem',
  'The residuals of the cubic coefficients of PolynomialFit vanish exactly at the cubics with the least sum of squared errors; control points that lie on a cubic are reproduced.',
  'any number of control points, all abscissas and ordinates', 'all reals, unbounded number of points',
  ['aviary/mission/two_dof/polynomial_fit.py: PolynomialFit.apply_nonlinear'],
  'Expansion of the squared error around a cubic.')
N('C42', 'Findings: cruise_time divides the whole distance by the mean speed of the last segment, so it is the sum of the segment times only at constant speed and can decrease (C42_cruise_time_refuted); simple_cruise DistanceComp declares the partial of the initial distance for node 0 only (C42_DistanceComp_refuted).')
N('C33', 'Stated for any subset of the deck variables and any number of nodes. Findings: at Mach one the fuel flow jumps when the subsonic and supersonic factors differ, and no partial with respect to Mach is declared (C33_mach_one_refuted); rotational speed and torque are both scaled, so shaft power is no longer their product (C33_shaft_power_relation).')
N('C39', 'Both allocation modes, any number of nodes and engine types; the index arithmetic of np.tile, np.repeat and row-major storage is part of the model.')

C('C55', 'The shipped atmosphere tables describe a physical atmosphere',
  'All 13 tables have strictly increasing altitudes with one coefficient row more than altitudes and contain altitude zero; at every altitude of the range the temperature is positive and, except on Venus, so are pressure and density; neighbouring cubics meet up to 1e-12; in the standard atmosphere pressure and density fall with altitude and obey the gas law at the table points; the sea level density handed to the mission is the density of the component at altitude zero.',
  'all real altitudes in the range of each of the 13 tables',
  'a cubic can leave the range of its end points between two table points; tests evaluate a few altitudes',
  ['aviary/subsystems/atmosphere/data/*.py', 'aviary/subsystems/atmosphere/atmosphere.py: AtmosphereComp.compute', 'aviary/subsystems/atmosphere/utils/get_atmosphere_data.py'],
  'The decimals of the data files are turned into exact rationals by tools/atmdata.py; Bernstein coefficients of every cubic are checked by vm_compute and lifted to all reals.')
N('C35', 'Exact for any table at altitudes that are not table points, any number of nodes. Findings: in geodetic mode the partial of dsos_dh is multiplied by the square of dz_dh instead of dz_dh (C35_dsos_geometric_refuted, C35_dsos_wrong); the output dsos_dh is the slope of the speed of sound only where the table of temperature slopes agrees with the temperature table (C35_dsos_output); the Atmosphere group never passes delta_T_Celcius on (C35_delta_T_refuted).')
N('C43', 'Findings: negative altitudes give a complex number or nan (C43_negative_refuted); above about 2.1e7 ft the loop never ends (C43_diverges_refuted). The caller list is overwritten in place (not modelled).')
N('C55', 'Findings: the Venus table gives negative pressure and density inside its range (C55_venus_refuted); in the hot and cold tables the pressure rises with altitude (C55_rising_refuted); 10 km above the standard table pressure and density are negative (C55_above_refuted).')
G = 'aviary/subsystems/mass/gasp_based/'
C('C56', 'Declared partials of GASP systems, equipment, crew and landing gear masses are exact',
  'For every component of the GASP systems, operating items, furnishings, controls and landing gear masses the partial that OpenMDAO uses is the derivative of what compute assigns, for every output and input, smooth and not smooth. The main gear and the nose gear together are the landing gear; emergency equipment, oxygen system and passenger service never get lighter with more passengers; the cabin crew never gets lighter on either side of 40 passengers.',
  Q_OPT, W_OPT,
  [G + f for f in ('air_conditioning.py', 'anti_icing.py', 'apu.py', 'avionics.py', 'cargo_containers.py', 'control.py', 'crew.py', 'electrical.py', 'emergency_equipment.py', 'engine_oil.py', 'furnishings.py', 'hydraulics.py', 'instruments.py', 'landing.py', 'oxygen_system.py', 'passenger_service.py')],
  'As C46, with the sigmoid and the smooth maximum of utils/math as functions with known derivatives (CompFun.v); thresholds are left out of the domain when not smooth.')
N('C56', 'Findings: the cabin crew mass falls from 39 to 40 passengers (C56_cabin_crew_refuted, crew.py L58-61); the partials of the surface control mass and of the total landing gear mass lack their mass scaler (C56_surface_scaler, C56_gear_scaler: exact iff the scaler is 1 or the partial is 0); one term of the landing gear partial with respect to the nacelle diameter has the wrong sign (C56_gear_diameter_refuted) and the one with respect to the wing location is not declared; the passenger service partial is 0 for 10 to 19 passengers (C56_passenger_service_refuted); smooth furnishings add the mass of both branches (C56_furnishing_smooth_refuted); without smoothing compute raises UnboundLocalError for fewer than 50 passengers and a cabin width from 5.667 to 8.9. Landing gear for one engine type.')
C('C57', 'Declared partials of GASP wing, tail, engine and fixed masses are exact',
  'For the strut, fold, wing total, tail, payload, engine, pod and electric augmentation components and for the wing mass parameters the partial that OpenMDAO uses is the derivative of what compute assigns, for every output and input.',
  Q_OPT, W_OPT,
  [G + f for f in ('wing.py: StrutAndFoldMass, WingMassTotal', 'fixed.py: MassParameters, PayloadGroup, ElectricAugmentationMass, HorizontalTailMass, VerticalTailMass', 'fixed.py', 'engine.py: TotalEngineMass, EnginePodMass, AdditionalEngineMass')],
  'As C56; the chain through the half sweep angle is proved once for any dependence of its tangent on the input.')
N('C57', 'Findings: all partials of the two tail masses lack the mass scaler (C57_htail_scaler, C57_vtail_scaler: exact iff the scaler is 1 or the partial is 0), so do two partials of the pylon mass (C57_pylon_scaler); the smooth gear location partial has a factor 100 too much (C57_gear_location_refuted). One engine type. Not covered: HighLiftMass, WingMountEngineMass, WingMassSolve.')
C('C58', 'The Hamilton Standard propeller method interpolates its tables and ends with a physical result',
  'The interpolation routines reproduce the table at its points, hold the end values outside, reproduce quadratics inside, are continuous with continuous slope and, in two variables, are the product of the one-variable rules; the shipped tables are increasing; the thrust iteration returns a positive thrust coefficient within 0.1 % of its target, zero or an error; at the design lift coefficient there is always a result; thrust times speed is installed efficiency times shaft power.',
  'all tables of any length, all real arguments, all numbers of blades', 'interpolation between table points, iteration over all inputs',
  ['aviary/subsystems/propulsion/propeller/hamilton_standard.py: _unint, _biquad, PreHamiltonStandard.compute, HamiltonStandard.compute, PostHamiltonStandard.compute'],
  'The tables are copied as integers by tools/hamdata.py; lists and Python indices are modelled literally, numbers are reals.')
N('C58', 'Findings: no blades give the result of eight blades because of index -1 (C58_no_blades_refuted), more than eight blades raise IndexError; the checks compare any(...) with 0 and so accept negative tip speed, speed of sound, density and power (C58_checks_refuted); one row of the Mach correction table is not monotone (C58_mach_table_refuted); tables with fewer than four points raise IndexError (C58_unint_short_refuted); the interpolant leaves the range of the neighbouring table values (C58_unint_between_refuted). A division by zero in the iteration is an outcome of its own (nan in numpy). Not modelled: messages, complex step, the declared partials of the first and last component.')
F2A = 'aviary/utils/fortran_to_aviary.py: '
C('C59', 'A Fortran deck is read as exactly its assignments and every value is kept',
  'A deck of namelists and free lines is read as its assignments in their order with their namelists, whatever the white space, comments, empty lines, trailing commas and number of assignments per line; a name stands for the variables that have a Fortran name ending with it; every assignment gives each of its variables a value among the inputs or unused values and changes no other variable; an input has the values of the last assignment that stands for it; element assignments keep all other elements; scaler variables become factors or fixed values by their size.',
  'all decks, all texts of ASCII characters, all metadata tables', 'all layouts of all decks, any order of assignments',
  [F2A + 'parse_input_file', F2A + 'process_and_store_data', F2A + 'set_value', F2A + 'update_name', F2A + 'update_flops_scaler_variables, update_gasp_scaler_variables'],
  'Induction over a grammar of decks and their layouts; the reader is generic in what it does with an assignment.')
N('C59', 'Findings: INPROP.GR always raises TypeError (C59_gear_refuted); units written in the deck are ignored for every input (C59_units_refuted), though documented; Aviary names outside of namelists, the documented use, never set an input (C59_free_names_refuted); the branch for initial guesses is never taken (C59_guesses_refuted); a namelist on one line is never closed (C59_one_line_refuted); slashes, blanks and exclamation marks inside of text are lost (C59_slash_refuted, C59_text_refuted); an exponent can become part of the next name (C59_exponent_refuted); the end of a name is enough to match (C59_suffix_refuted); VAR(3) without VAR(1) leaves None in front (C59_first_element_refuted), VAR(0) overwrites the last element (C59_index_zero_refuted); a bool is converted at the first assignment only and wrong numbers pass because the ValueError is not raised (C59_bool_refuted); a scaler of zero, no mass by its documentation, is removed so that the default applies (C59_scaler_refuted). Lists are values: that one list object can be shared by several names is not modelled.')
FA = 'aviary/subsystems/aerodynamics/flops_based/'
C('C60', 'The partials of the FLOPS based aerodynamics are the derivatives of its outputs',
  'Every declared partial of lift, drag, ground effect, induced drag with and without forward sweep, buffet lift, compressibility drag, lift dependent drag, the residuals of the skin friction, each surface of the skin friction drag and the battery equals the derivative of the modelled output with respect to that input, at every node and for every table; the interpolation at the edges of the lift dependent drag is characterised exactly.',
  'all options, all real inputs of the stated domain, all node counts, all interpolated tables', 'finite differences at a few points cannot show equality of the derivatives everywhere, nor for other tables',
  [FA + 'lift.py', FA + 'drag.py', FA + 'ground_effect.py', FA + 'induced_drag.py', FA + 'buffet_lift.py', FA + 'compressibility_drag.py', FA + 'lift_dependent_drag.py', FA + 'skin_friction.py', FA + 'skin_friction_drag.py', 'aviary/subsystems/energy/battery_sizing.py'],
  'Tables are arguments with their partial derivatives (smooth_at, smooth3); chain rules for each shape of term, then equality of rational expressions.')
N('C60', 'Findings: forward sweep and the sweep of the buffet lift are divided by pi / 180 instead of multiplied, so both have a period of about 0.055 or 0.11 degrees and the buffet lift changes sign at 0.055 degrees (C60_forward_sweep_period_refuted, C60_buffet_sweep_refuted); edge_interp of the lift dependent drag has a fixed factor 2 where the distance of the two table points belongs, so the drag factor jumps by 4, 20 or 10 at three of its four edges (C60_edge_reciprocal, C60_edge_jump_refuted); at Mach 1 and above a taper ratio of exactly 1 counts as one half in the interference drag (C60_taper_one) while compute_partials divides by 1 - taper ratio; without laminar flow the partials for the laminar fractions are those of laminar flow (excepted in C60_SkinFrictionTerm_turbulent), and the partial for Re is not written. TAW, which guess_nonlinear computes from temperature and Mach number, is constant in linearize and in the model. Domains leave out the points where a formula changes. Not modelled: the tables themselves, the loop that selects tables, the guess, SkinFrictionDrag as the sum over surfaces.')

GG = 'aviary/subsystems/geometry/gasp_based/'
C('C61', 'The partials of the GASP based geometry are the derivatives of its outputs, with the exceptions',
  'Every declared partial of the fuselage, wing, strut, fold, fuel volume, tail, cable, nacelle and engine sizes of the GASP based geometry, for tube and wing and for blended wing body, equals the derivative of the modelled output with respect to that input (of the fuel volume of a blended wing body: the partials with respect to the gear location only); the exceptions are named and their error is given exactly; the exposed wing share and the exposed nacelle share are joined smoothly at the borders of their cases, including the border points.',
  'all options, all real inputs of the stated domain', 'finite differences at a few points cannot show equality of the derivatives everywhere, nor at the borders of the cases',
  [GG + 'electric.py', GG + 'empennage.py', GG + 'engine.py', GG + 'fuselage.py', GG + 'non_dimensional_conversion.py', GG + 'strut.py', GG + 'wing.py'],
  'Components from the translator; a lemma for the rate of the fuel volume formula, a lemma for gluing two curves at a border, then equality of rational expressions.')
N('C61', 'Findings: the partial of the hydraulic diameter of a blended wing body with respect to the aisle width uses the cabin width where the mean of cabin and body width belongs (C61_hydraulic_diameter_refuted); the partial of its wetted area with respect to the hydraulic diameter multiplies by one diagonal where it should divide by another, so it is exact only if their product is 1 (C61_wetted_area_iff); with smoothing, the partials of the blended wing body fuel volume with respect to the gear location lack a factor 6 and divide by the width of the smoothing twice (C61_BWBWingVolumeNoFold_gear, C61_BWBWingVolumeFold_gear); without smoothing they are exact. Outside of [0, 1] the wing mount location makes ExposedWing raise a string, which python rejects with a TypeError; the domain excludes it. BWBCabinLayout and the partials of the blended wing body fuel volume with respect to its other inputs are not part of this claim.')

C('C62', 'Design loads, fuselage masses and fuel masses of GASP: exact partials and limits, with the exceptions',
  'Every declared partial of the transport design speeds, of the lift curve slope, of the load factors where they differ and without smoothing, of the fuselage masses, of the fuel system, of the fuel mass and of the wing fuel equals the derivative of the modelled output, the exceptions being named with the exact condition or error; the wing fuel is the smaller of its volume limit and its take-off limit; the capacity without the unusable fuel is the smaller of the carried fuel and the gross mass without the operating mass; the design fuel is the required fuel exactly if the fuel system mass is consistent with it; the ultimate load factor is 3 / 2 of the greatest of manoeuvre, cruise gust and dive gust load factor; cruise and dive speeds, Mach number and density ratio respect their limits; in the categories 0, 1 and 2 the speeds of a light blended wing body are those of a tube and wing aircraft whose wing loading is the gross mass over the exposed wing area.',
  'all options, all real inputs of the stated domain', 'finite differences at a few points cannot show equality of the derivatives everywhere, and a test of a limit sees one side of it only',
  ['aviary/subsystems/mass/gasp_based/design_load.py', 'aviary/subsystems/mass/gasp_based/fuel.py'],
  'Components from the translator; equality of rational expressions and powers for the partials, case distinctions for the limits.')
N('C62', 'Findings: for a light aircraft of category 1 compute_partials overwrites the partial of the cruise speed with respect to the wing loading by 0, though the speed grows with it (C62_category_one_refuted; the source asks "why this block?"); the partial of the fuselage mass with respect to the additional mass lacks the mass scaler, so it is exact exactly if the scaler is 1 (C62_fuselage_scaler), as do six partials of the blended wing body fuselage mass (C62_bwb_fuselage_scaler); with smoothing, the partial of the auxiliary fuel divides the slope of the sigmoid by 50 again (C62_auxiliary_refuted), and the partials of the greatest wing fuel carry the wrong sign in one term, the error being exactly twice that term (C62_wing_fuel_gross, C62_wing_fuel_gross_refuted). With smoothing, the partial of the ultimate load factor with respect to the dive speed is always 0 although it grows with it (C62_dive_speed_refuted gives the derivative where the three factors agree, design_load.py L1090). Modelled but without a theorem on the partials: the other light aircraft speeds, the load parameters, the load factors with smoothing (apart from the dive speed), the blended wing body load factors and the body tank (apart from the auxiliary fuel). For these the values are covered without smoothing; with smoothing the values are not covered either, except that the light blended wing body speeds equal those of the tube and wing class (C62_bwb_light_speeds_smooth). Wrong versions of these definitions survive; see seeded/LOG.jsonl, where the surviving edits carry a note.')
C('C63', 'GASP aerodynamics: exact partials, inverse lift relations and stall, with the exceptions',
  'Every declared partial of the lift and drag forces, of the form factors, of the wing and fuselage interference, of the lift curve slope of the body and of the lift coefficients (take-off and landing, clean, from the angle of attack and to it, conventional and blended wing body) equals the derivative of the modelled output, the exceptions being named with the exact condition; the angle of attack and the lift coefficient are inverse to each other, as are lift and lift coefficient; at the stall angle the lift coefficient is the maximum lift coefficient, clean and with full flaps; the lift coefficient lies on the line between no flaps and full flaps; the induced drag factor of a blended wing body is at most 0.975.',
  'all options, all real inputs of the stated domain', 'finite differences at a few points cannot show equality of the derivatives everywhere, and a test of an inverse relation sees a few values only',
  ['aviary/subsystems/aerodynamics/gasp_based/' + f for f in ('common.py', 'gasp_aero_coeffs.py', 'interference.py', 'gaspaero.py: UFac, LiftCoeff, BWBLiftCoeff, LiftCoeffClean, BWBLiftCoeffClean, SIWB')],
  'Components from the translator; equality of rational expressions, powers and roots for the partials, field equations for the inverse relations.')
N('C63', 'Findings: the partial of the induced drag factor with respect to the lift ratio divides the derivative of the numerator by the span ratio, so it is exact exactly if the span ratio is 1 (C63_lift_ratio_iff, gaspaero.py L625); for a blended wing body compute replaces a small span ratio by 1 but compute_partials does not (C63_bwb_small_span_refuted), and above the limit of 0.975 the partial with respect to the lift ratio is not limited, so it is exact exactly if it is zero anyway (C63_bwb_capped_iff); the unused component WingFuselageInterferenceMission reads its two interference inputs in the wrong order (C63_interference_swapped, interference.py L353-354, L399); with full flaps the reported maximum lift coefficient of a blended wing body is that of the wing, the whole body having another one at the stall angle (C63_bwb_stall). The smooth limit: its bound only. Not modelled: the components with complex step partials (WingTailRatios, Xlifts, AeroGeom, DragCoef, GroundEffect), the ramps, the polar interpolation.')
