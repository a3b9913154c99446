{"id": "C01", "title": "NamedValues behaves as an insertion-ordered last-write-wins map", "statement": "After any sequence of set_val / update / delete / clear calls on a NamedValues object, get_item(key) returns exactly the value and units of the last successful write of key that was not followed by a delete of key or a clear, and raises KeyError if there is none; `key in c`, len(c), keys() and iteration agree with it, each key appears once, and keys are iterated in the order of their first surviving write.", "quantifier": "every finite history of container operations, every key and value", "why_tests_cant": "unit tests replay a handful of short histories; the claim is about all histories and every interleaving of overwrites and deletes", "anchors": ["aviary/utils/named_values.py: NamedValues.set_val, get_item, update, delete, clear, __iter__, __contains__, __len__"]}
{"id": "C02", "title": "Failed container calls leave a precisely known state", "statement": "A set_val, get_val, get_item or delete that raises leaves the container unchanged; an update over an iterable that raises at its i-th entry leaves exactly the first i entries applied (update is not atomic) and nothing else changed.", "quantifier": "every container state, every argument list and every position of the failing entry", "why_tests_cant": "failure can happen at every position of an arbitrarily long update", "anchors": ["aviary/utils/named_values.py: NamedValues.set_val, update, delete, _check_units"]}
{"id": "C03", "title": "deepcopy isolates, copy aliases", "statement": "Two handles related by deepcopy() never observe one another: for every sequence of mutations issued on either handle, reading the other returns what it would have returned had those mutations not happened. For copy() the opposite holds: the two handles share the collection, so every mutation through one is observed through the other.", "quantifier": "every history of mutations split arbitrarily between the original and the copy", "why_tests_cant": "aliasing defects appear only for particular later mutations", "anchors": ["aviary/utils/named_values.py: NamedValues.copy, deepcopy"]}
{"id": "C04", "title": "Unit conversion on read is lossless, path independent and shape preserving", "statement": "get_val in the stored units returns the stored value unchanged; reading in units v and writing back in v then reading in u gives the same number as reading directly in u; converting never changes the container kind or length of an iterable and keeps None entries None; a request for incompatible units raises and changes nothing, except for empty or all-None iterables, where it is accepted. Integer arrays are truncated on assignment, so only for them the round trip can lose data.", "quantifier": "all values (scalars, lists, tuples, arrays, None entries), all chains of compatible units with arbitrary scale and offset", "why_tests_cant": "tests check fixed unit pairs on fixed numbers", "anchors": ["aviary/utils/utils.py: wrapped_convert_units", "aviary/utils/named_values.py: NamedValues.get_val"]}
{"id": "C05", "title": "AviaryValues never stores an entry that contradicts the metadata", "statement": "After any sequence of AviaryValues.set_val / update / delete calls, every stored entry whose key is in the metadata has units compatible with the metadata units and a value that passes the metadata type check; a rejected call stores nothing.", "quantifier": "every history of calls, every metadata table, every value", "why_tests_cant": "an invariant over all histories", "anchors": ["aviary/utils/aviary_values.py: AviaryValues.set_val, _check_units_compatibility", "aviary/utils/utils.py: check_type, cast_type"]}
{"id": "C06", "title": "The type check accepts exactly the values whose every leaf has a declared type", "statement": "For list, tuple and scalar values check_type accepts iff the container kind is allowed and every leaf, at any nesting depth, has one of the declared types, with bool accepted only where bool is declared. For numpy arrays only the first leaf is inspected.", "quantifier": "values of unbounded nesting depth and length, every type set", "why_tests_cant": "unbounded nesting; tests use depth one or two", "anchors": ["aviary/utils/utils.py: check_type"]}
{"id": "C07", "title": "Type casting is idempotent and only ever yields declared types or the original value", "statement": "cast_type returns conforming values unchanged; a string for an enum option given by value or by (case-insensitive) member name is cast to that member and any other string raises; a cast scalar is either a declared type or the original value and casting it twice equals casting once; an iterable for a single non-enum type is cast element by element or left alone. Not guaranteed, with witnesses: element-wise casting of a list of strings for an enum option (it collapses to the first member), strict casting of strings in a bool list, lossless casting of a float to an int option.", "quantifier": "every value and every type list", "why_tests_cant": "the set of values is unbounded; the failing branch needs a list of strings", "anchors": ["aviary/utils/utils.py: cast_type, enum_setter"]}
{"id": "C08", "title": "CSV data tables survive write then read", "statement": "Writing a table with write_data_file and reading the file back with read_data_file yields the same variable names in the same order, the same units, the same column values and the same input/output labels.", "quantifier": "every table with well-formed names, units and non-empty equal-length columns, any column widths, any comments", "why_tests_cant": "unbounded tables; the writer pads, the reader splits on a regular expression with look-ahead", "anchors": ["aviary/utils/csv_data_file.py: write_data_file, read_data_file"]}
{"id": "C09", "title": "CSV reader keeps every number in its own column", "statement": "When every data row has one numeric cell per header cell and header names are distinct after alias resolution, the value list returned for a variable is exactly its column, in row order, also when unrecognised columns are skipped. With a blank cell or a repeated header name the alignment is lost without an error.", "quantifier": "all headers, all metadata filters, all rows", "why_tests_cant": "column alignment depends on arbitrary subsets of skipped columns", "anchors": ["aviary/utils/csv_data_file.py: read_data_file"]}
{"id": "C10", "title": "Metadata merge is a conflict-checked union", "statement": "merge_meta_data of any list of metadata dictionaries succeeds exactly when every definition of every variable agrees (up to the numeric tolerance, recursively) with the first definition of that variable in the list; the result then holds exactly the union of the variables, each with its first definition; a disagreement raises ValueError, an empty list IndexError.", "quantifier": "any number of dictionaries of any size", "why_tests_cant": "pairwise conflicts among arbitrarily many dictionaries", "anchors": ["aviary/utils/merge_variable_metadata.py: merge_2_meta_data_dicts, merge_meta_data, almost_equal"]}
{"id": "C11", "title": "Variable hierarchy merge loses and changes nothing", "statement": "For hierarchies in which no name is a variable in one and an inner class in another: merge_hierarchies reports a conflict exactly when some path has two different strings, and otherwise yields exactly the union of the paths of all inputs, each with its original variable name. A conflict is reported even with mixed names.", "quantifier": "class trees of any depth and width, any number of them", "why_tests_cant": "unbounded trees", "anchors": ["aviary/utils/merge_hierarchies.py", "aviary/utils/compare_hierarchies.py"]}
{"id": "C12", "title": "String-to-data conversion classifies every token", "statement": "convert_strings_to_data turns each token, stripped of brackets, into an integer exactly when it follows the integer grammar, into a float exactly when it follows the float grammar and contains a point, into a bool exactly when it spells true or false, and otherwise keeps it; decimal notation is read back to its value; a single token gives a scalar and a list gives a list of the same length and order.", "quantifier": "every token list", "why_tests_cant": "unbounded strings", "anchors": ["aviary/utils/functions.py: convert_strings_to_data"]}
{"id": "C13", "title": "Fuel capacity preprocessing keeps tank capacities consistent with the total", "statement": "With FLOPS masses and a given total, preprocess_fuel_capacities succeeds exactly when the tank capacities that were not given can be completed with non-negative values so that wing, fuselage and auxiliary capacity add up to the total, and changes nothing; without a total it only sets absent fuselage and auxiliary capacities to zero; it is idempotent.", "quantifier": "every subset of provided capacities and every value", "why_tests_cant": "sixteen provided/absent patterns times all values", "anchors": ["aviary/utils/preprocessors.py: preprocess_fuel_capacities"]}
{"id": "C14", "title": "Passenger and cargo preprocessing yields a self-consistent payload", "statement": "With FLOPS masses and non-negative counts, total passengers equal the sum of the class counts for design and for the mission afterwards; given class counts are kept; overbooking is reported exactly when it happens (VERBOSE) and a replaced mission total is reported (BRIEF). With GASP masses the cargo values follow the documented table, flown and design cargo never exceed the maximum, and given maximum and design values are kept.", "quantifier": "every combination of provided and defaulted passenger classes and cargo inputs", "why_tests_cant": "combinations of provided/absent inputs and all values", "anchors": ["aviary/utils/preprocessors.py: preprocess_crewpayload"]}
{"id": "C15", "title": "Crew sizing rules are total, monotone and respect explicit input", "statement": "Flight crew, flight attendants and galley crew derived from the passenger count are non-decreasing in the passenger count, meet the documented ratios (at least one attendant per 50 passengers), and non-negative given values are kept; the cabin crew, if given, becomes attendants plus galley crew; the step is idempotent.", "quantifier": "every passenger count", "why_tests_cant": "unbounded integer domain with step functions", "anchors": ["aviary/utils/preprocessors.py: preprocess_crewpayload"]}
{"id": "C16", "title": "Engine count reconciliation keeps wing and fuselage engines consistent with the total", "statement": "For every engine model with non-negative counts, after preprocess_propulsion the number of wing plus fuselage engines equals the number of engines, except exactly when one engine has no mount, none was put on the wing and some on the fuselage; the total is the larger of the given total and the given mounts, given mounts are never reduced, the step is idempotent, and the aircraft totals are off by the number of exceptional models.", "quantifier": "all counts and all subsets of provided values", "why_tests_cant": "unbounded integers with parity branches", "anchors": ["aviary/utils/preprocessors.py: preprocess_propulsion"]}
{"id": "C17", "title": "Engine vectorisation gives one entry per engine model with the documented priority", "statement": "After preprocess_propulsion every engine/nacelle variable that takes one value per engine has one entry per engine model, and entry i comes from engine model i if it defines the variable, else from the aircraft inputs (unless these hold an empty list), else from the metadata default; repeating the step changes nothing. Variables that take a list per engine are joined in order when every model has its own list.", "quantifier": "any number of engine models, any pattern of definitions", "why_tests_cant": "unbounded number of engines and variables", "anchors": ["aviary/utils/preprocessors.py: preprocess_propulsion"]}
{"id": "C18", "title": "Engine deck acceptance and the columns of an accepted deck", "statement": "Exact acceptance condition of _check_data for every set of columns and values. The intended condition, all mandatory columns present and net thrust equal to gross thrust minus ram drag, is false of the code: a deck is accepted exactly when at least one mandatory column is present and no row agrees within tolerance. An accepted table has one entry per row in every column, and its thrust is net (or gross minus ram) plus tailpipe thrust.", "quantifier": "every set of columns, all values, any number of rows", "why_tests_cant": "all subsets of columns times all values", "anchors": ["aviary/subsystems/propulsion/engine_deck.py: EngineDeck._check_data"]}
{"id": "C19", "title": "Packing an engine deck into the 3-D grid keeps every data point at its own flight condition", "statement": "Given a deck sorted by Mach number and altitude whose distinct values are farther apart than the tolerances, with at least two rows per flight condition, two altitudes per Mach number (the last excepted) and no more altitudes at the last Mach number than elsewhere, _count_data and _pack_data place each row exactly once in the cell of its Mach number and altitude and record the number of rows of each cell, provided the last flight condition is not the only largest one; otherwise they raise IndexError. Each condition is necessary.", "quantifier": "every sorted deck of any size", "why_tests_cant": "index bookkeeping over decks of unbounded, ragged shape", "anchors": ["aviary/subsystems/propulsion/engine_deck.py: EngineDeck._count_data, _pack_data"]}
{"id": "C20", "title": "Throttle normalisation maps each flight condition onto [0, 1] preserving order", "statement": "normalize maps any column with two different values by an increasing affine map onto [0, 1] reaching both ends, and a constant column to nan; hybrid throttle keeps signs and scales each sign by its own extreme; local normalisation of a faithfully packed deck is, row for row, each flight condition normalised on its own.", "quantifier": "all decks", "why_tests_cant": "all real columns", "anchors": ["aviary/subsystems/propulsion/engine_deck.py: _normalize_throttle, normalize"]}
{"id": "C21", "title": "Reference thrust, scaled thrust and scale factor agree after preprocessing", "statement": "For every provided subset of reference thrust, scaled thrust and scale factor: _set_reference_thrust accepts exactly the stated inputs; afterwards scaled = scale factor x reference; given reference thrust and scale factor are kept; a given scaled thrust is kept or moved by at most the comparison tolerance; a missing reference is the largest sea-level static thrust of the deck; a second pass changes nothing.", "quantifier": "every subset and every real value", "why_tests_cant": "eight patterns times all reals", "anchors": ["aviary/subsystems/propulsion/engine_deck.py: EngineDeck._set_reference_thrust"]}
{"id": "C22", "title": "Reserve phases are separated from main phases without loss", "statement": "separate_reserve_phases accepts exactly the phase lists in which no main phase follows a reserve phase, and then main ++ reserve is the list of phases that carry user options, in order.", "quantifier": "phase lists of any length and any reserve flags", "why_tests_cant": "all orders of flags", "anchors": ["aviary/mission/utils.py: separate_reserve_phases"]}
{"id": "C23", "title": "Fuel bookkeeping receives both ends of the reserve mission", "statement": "The reserve fuel component is connected to the initial mass of the first reserve phase and to the final mass of the last one exactly when there are at least two reserve phases; with exactly one reserve phase the initial-mass connection is lost.", "quantifier": "phase lists of any length", "why_tests_cant": "number of reserve phases is unbounded and the defect shows only at exactly one", "anchors": ["aviary/subsystems/energy/energy_builder.py: get_post_mission_bus_variables"]}
{"id": "C24", "title": "Phase linking links each consecutive pair exactly when neither end forbids it", "statement": "A state (mass, distance, time, altitude, Mach or velocity) is linked across two consecutive phases exactly when the phase-type, optimise and pin options of both ends say so; no pair is linked twice in one call; the link is a connection or a scaled constraint as requested; the fixed initial value of a linked phase is released exactly in the stated cases.", "quantifier": "all phase lists and all option values", "why_tests_cant": "combinatorial", "anchors": ["aviary/core/aviary_group.py: link_phases"]}
{"id": "C25", "title": "Composite objective weights are normalised", "statement": "add_composite_objective turns any non-empty list of well-formed objective descriptions (number and order arbitrary) into one expression whose value is the weighted mean of the described outputs, with inputs connected in order; it accepts exactly the stated lists; the reference is chosen only for a single objective; add_composite_objective_adv normalises each weight level. Where the sum of weights is zero the result is an error.", "quantifier": "all argument lists", "why_tests_cant": "unbounded lists and all reals", "anchors": ["aviary/core/aviary_problem.py: add_composite_objective"]}
{"id": "C26", "title": "The payload-range runs use the loads and gross masses of the four points", "statement": "run_payload_range accepts exactly the stated problems; its table then consists of the four points with the described off-design inputs: design load, reduced load that leaves room for full tanks exactly when the aircraft cannot lift full fuel with full payload, and the empty ferry flight at empty mass plus fuel; run_off_design_mission turns its arguments into exactly the stated inputs or errors.", "quantifier": "all masses", "why_tests_cant": "all real inputs; a branch leaves a variable unbound", "anchors": ["aviary/core/aviary_problem.py: run_payload_range"]}
{"id": "C27", "title": "Saved sizing results reload to the same inputs", "statement": "For every input table of savable values save_results writes a file that _read_sizing_json reads; every known name then holds the same scalar, enum member (every member of every declared enumeration) or list in the same units, gross masses hold the sized values, unknown names are dropped and nothing is added; reload succeeds exactly when the inputs named Mission.GROSS_MASS; what saving leaves behind in the inputs is characterised.", "quantifier": "all input tables", "why_tests_cant": "unbounded tables with mixed value kinds", "anchors": ["aviary/core/aviary_problem.py: save_results / _read_sizing_json"]}
{"id": "C28", "title": "Mission fuel bookkeeping balances", "statement": "Fuel burned, reserve fuel (burned + margin + additional), the mass residual constraint and block fuel computed after the mission satisfy the fuel balance: residual zero iff the fuel loaded equals mission fuel plus total reserve, and then the capacity constraint holds iff that fuel plus the unusable fuel fits the tanks. With exactly one reserve phase the reserve fuel ignores the mass at its start.", "quantifier": "all masses and margins", "why_tests_cant": "identity over all reals and all option patterns", "anchors": ["aviary/subsystems/energy/fuel_summation.py: FuelSummationGroup"]}
{"id": "C30", "title": "The sigmoid blend stays in (0,1), is monotone and has the declared derivative", "statement": "For an array argument and mu <> 0 every element of sigmoidX lies in [0,1), equals the logistic function where it is not cut off, is monotone in x, is 1/2 at x0, satisfies the reflection identity, and dSigmoidXdx is its true derivative everywhere except at the cut-off point; mu = 0 is rejected. Scalar arguments behave the same only for small mu, and the scalar derivative always raises.", "quantifier": "all real x, x0 and mu <> 0", "why_tests_cant": "calculus over all reals", "anchors": ["aviary/utils/math.py: sigmoidX, dSigmoidXdx"]}
{"id": "C31", "title": "Smooth max/min bracket the true max/min and have correct derivatives", "statement": "max(x,b) <= smooth_max(x,b,mu) <= max(x,b)+ln 2/mu, min(x,b)-ln 2/mu <= smooth_min(x,b,mu) <= min(x,b) and the derivative helpers equal the true derivatives.", "quantifier": "all reals, all mu>0", "why_tests_cant": "bounds and derivatives over all reals", "anchors": ["aviary/utils/math.py: smooth_max, smooth_min, d_smooth_max, d_smooth_min"]}
{"id": "C32", "title": "The smooth integer functions fix the integers, are monotone and have correct derivatives", "statement": "sin_int and sin_int4 map integers as documented, are non-decreasing and their derivative helpers equal the true derivatives.", "quantifier": "all reals, all integers", "why_tests_cant": "calculus over all reals", "anchors": ["aviary/utils/math.py: sin_int, sin_int4, dydx_sin_int, dydx_sin_int4"]}
{"id": "C33", "title": "Engine performance scaling has exact partials", "statement": "For every input the partial derivatives returned by the engine scaling and sizing components equal the true derivatives of their outputs.", "quantifier": "all real inputs", "why_tests_cant": "derivative equality at all points; finite-difference tests sample a few", "anchors": ["aviary/subsystems/propulsion/engine_scaling.py", "aviary/subsystems/propulsion/engine_sizing.py", "aviary/subsystems/propulsion/propulsion_premission.py"]}
{"id": "C34", "title": "Flight-condition conversions are mutually inverse and have exact partials", "statement": "TAS, EAS and Mach input modes give the same dynamic pressure for the same flight condition, converting back and forth returns the original speed, and every declared partial equals the true derivative.", "quantifier": "all positive densities, speeds of sound and all speeds", "why_tests_cant": "all reals", "anchors": ["aviary/subsystems/atmosphere/flight_conditions.py: FlightConditions"]}
{"id": "C35", "title": "Atmosphere component chain rule", "statement": "Each derivative output and partial of the atmosphere component equals the true derivative with respect to the altitude input in both geodetic and geopotential mode.", "quantifier": "all altitudes, all table coefficients", "why_tests_cant": "all reals and all spline coefficients", "anchors": ["aviary/subsystems/atmosphere/atmosphere.py: AtmosphereComp"]}
{"id": "C36", "title": "FLOPS fuel capacity components have exact partials and conserve capacity", "statement": "Wing, fuselage and auxiliary fuel capacities have exact partials and add up to the total as documented.", "quantifier": "all positive geometry", "why_tests_cant": "all reals", "anchors": ["aviary/subsystems/mass/flops_based/fuel_capacity.py"]}
{"id": "C37", "title": "FLOPS mass summation is a conservation law", "statement": "The chain of FLOPS mass summation components is linear with the declared partials, and the zero-fuel mass equals the sum of every leaf mass exactly once, in both the standard and the alternate path.", "quantifier": "all leaf masses, any number of engine types", "why_tests_cant": "a sum over many leaves can omit or double count one only visible for particular values", "anchors": ["aviary/subsystems/mass/flops_based/mass_summation.py"]}
{"id": "C38", "title": "GASP mass summation is a conservation law", "statement": "The GASP mass summation components have the declared partials, and the zero-fuel mass and the useful load equal the sum of every leaf mass exactly once; with totals supplied by the caller, each other total is still the sum of its parts.", "quantifier": "all leaf masses", "why_tests_cant": "as C37", "anchors": ["aviary/subsystems/mass/gasp_based/mass_summation.py"]}
{"id": "C39", "title": "Throttle allocation conserves the aggregate throttle", "statement": "For every number of engine types the allocated throttles of a node sum to the aggregate throttle, and the declared partials equal the true derivatives.", "quantifier": "any number of nodes and engine types, all reals", "why_tests_cant": "unbounded dimension", "anchors": ["aviary/subsystems/propulsion/throttle_allocation.py: ThrottleAllocator"]}
{"id": "C40", "title": "Energy-state equations of motion are mutually consistent with exact partials", "statement": "With the thrust equal to the required thrust, the specific energy rate and altitude rate components reproduce the commanded climb rate and acceleration; all declared partials equal the true derivatives; range rate satisfies the velocity triangle.", "quantifier": "all reals with non-zero speed and mass", "why_tests_cant": "all reals", "anchors": ["aviary/mission/ode/altitude_rate.py", "aviary/mission/ode/specific_energy_rate.py", "aviary/mission/energy_state/ode/required_thrust.py", "aviary/mission/energy_state/ode/range_rate.py", "aviary/mission/energy_state/ode/takeoff_eom.py", "aviary/mission/energy_state/ode/landing_eom.py"]}
{"id": "C41", "title": "Two-degree-of-freedom flight path equations have exact partials", "statement": "Every partial returned by the flight-path EOM equals the true derivative in the airborne and the ground-roll configuration, and altitude and distance rates satisfy the velocity triangle.", "quantifier": "all reals away from singularities", "why_tests_cant": "all reals", "anchors": ["aviary/mission/two_dof/ode/flight_path_eom.py: FlightPathEOM", "aviary/mission/two_dof/ode/flight_eom.py", "aviary/mission/two_dof/ode/takeoff_eom.py", "aviary/mission/two_dof/ode/accel_eom.py", "aviary/mission/two_dof/ode/taxi_eom.py", "aviary/mission/two_dof/ode/v_rotate_comp.py", "aviary/mission/two_dof/ode/constraints/flight_constraints.py", "aviary/mission/solved_two_dof/ode/gamma_comp.py", "aviary/mission/solved_two_dof/ode/groundroll_eom.py", "aviary/mission/solved_two_dof/ode/unsteady_solved_eom.py"]}
{"id": "C42", "title": "Breguet cruise range is additive over segments with exact partials", "statement": "Cruise range is the initial range plus the sum of segment ranges, is increasing for decreasing mass, and its partials for every node pair equal the true derivatives, for any number of nodes; cruise time should be the sum of segment times.", "quantifier": "any number of nodes, all positive speeds, masses and fuel flows", "why_tests_cant": "unbounded number of nodes", "anchors": ["aviary/mission/two_dof/ode/breguet_cruise_eom.py: RangeComp, ElectricRangeComp"]}
{"id": "C43", "title": "Geopotential altitude conversion terminates and inverts", "statement": "Geodetic to geopotential conversion is strictly increasing and inverted by its closed form; the fixed-point iteration used on engine decks terminates within its tolerance.", "quantifier": "all altitudes above minus the planet radius", "why_tests_cant": "all reals; loop termination", "anchors": ["aviary/subsystems/propulsion/utils.py: convert_geopotential_altitude", "aviary/subsystems/atmosphere/atmosphere.py: AtmosphereComp.compute"]}
{"id": "C44", "title": "The tanh integer blend stays within its unit interval and has the declared derivative", "statement": "smooth_int_tanh(x) lies strictly between floor(x) and floor(x)+1, is strictly increasing for mu > 0 and has derivative d_smooth_int_tanh at every non-integer x; a complex step through it gives slope one instead of the declared derivative.", "quantifier": "all real x and mu", "why_tests_cant": "calculus over all reals; floor makes it piecewise", "anchors": ["aviary/utils/math.py: smooth_int_tanh, d_smooth_int_tanh"]}
{"id": "C45", "title": "The vehicle deck reader finds name, values and units in every well-formed line", "statement": "For every line made of comma-separated cells with arbitrary white space, empty cells and an optional comment, parse_inputs finds exactly the non-empty items; name, values and optional units set that variable to the converted values in order with those units or the metadata units; lines are handled in order and lines without data leave no trace.", "quantifier": "all lines, any number of cells, all metadata and unit predicates", "why_tests_cant": "unbounded text; white space and empty cells in any place", "anchors": ["aviary/utils/process_input_decks.py: parse_inputs"]}
{"id": "C46", "title": "Declared partials of FLOPS systems and equipment masses are exact", "statement": "For every system and equipment mass component (air conditioning, APU, avionics, electrical, furnishings, hydraulics, instruments, surface controls; standard and alternate) every output is assigned, only declared partials are assigned, and for every output and input the partial that OpenMDAO uses is the derivative of what compute assigns.", "quantifier": "all real inputs in the stated domain (positive lengths, areas, masses where a power, root or quotient needs it), all option values", "why_tests_cant": "derivative of a real function at every point of an unbounded domain; finite differences and complex step sample points and have rounding error", "anchors": ["aviary/subsystems/mass/flops_based/air_conditioning.py", "aviary/subsystems/mass/flops_based/apu.py", "aviary/subsystems/mass/flops_based/avionics.py", "aviary/subsystems/mass/flops_based/electrical.py", "aviary/subsystems/mass/flops_based/furnishings.py", "aviary/subsystems/mass/flops_based/hydraulics.py", "aviary/subsystems/mass/flops_based/instruments.py", "aviary/subsystems/mass/flops_based/surface_controls.py"]}
{"id": "C47", "title": "Declared partials of FLOPS payload, crew and operating item masses are exact", "statement": "For every payload, crew, container, passenger service, engine oil, unusable fuel, paint, canard, fin and empty margin component the partial that OpenMDAO uses is the derivative of what compute assigns, for every output and input.", "quantifier": "all real inputs in the stated domain (positive lengths, areas, masses where a power, root or quotient needs it), all option values", "why_tests_cant": "derivative of a real function at every point of an unbounded domain; finite differences and complex step sample points and have rounding error", "anchors": ["aviary/subsystems/mass/flops_based/cargo_containers.py", "aviary/subsystems/mass/flops_based/crew.py", "aviary/subsystems/mass/flops_based/empty_margin.py", "aviary/subsystems/mass/flops_based/engine_oil.py", "aviary/subsystems/mass/flops_based/paint.py", "aviary/subsystems/mass/flops_based/passenger_service.py", "aviary/subsystems/mass/flops_based/payload.py", "aviary/subsystems/mass/flops_based/unusable_fuel.py"]}
{"id": "C48", "title": "Declared partials of FLOPS airframe masses are exact", "statement": "For every fuselage, tail, fin, canard, landing gear, landing mass and wing component without per-engine arrays the partial that OpenMDAO uses is the derivative of what compute assigns, for every output and input.", "quantifier": "all real inputs in the stated domain (positive lengths, areas, masses where a power, root or quotient needs it), all option values", "why_tests_cant": "derivative of a real function at every point of an unbounded domain; finite differences and complex step sample points and have rounding error", "anchors": ["aviary/subsystems/mass/flops_based/fuselage.py", "aviary/subsystems/mass/flops_based/horizontal_tail.py", "aviary/subsystems/mass/flops_based/vertical_tail.py", "aviary/subsystems/mass/flops_based/fin.py", "aviary/subsystems/mass/flops_based/canard.py", "aviary/subsystems/mass/flops_based/landing_gear.py", "aviary/subsystems/mass/flops_based/landing_mass.py", "aviary/subsystems/mass/flops_based/wing_common.py"]}
{"id": "C49", "title": "Declared partials of FLOPS fuel system, fuel capacity and engine control masses are exact", "statement": "For the fuel system, fuel capacity and engine control components the partial that OpenMDAO uses is the derivative of what compute assigns, for every output and input.", "quantifier": "all real inputs in the stated domain (positive lengths, areas, masses where a power, root or quotient needs it), all option values", "why_tests_cant": "derivative of a real function at every point of an unbounded domain; finite differences and complex step sample points and have rounding error", "anchors": ["aviary/subsystems/mass/flops_based/fuel_system.py", "aviary/subsystems/mass/flops_based/fuel_capacity.py", "aviary/subsystems/mass/flops_based/engine_controls.py", "aviary/subsystems/mass/flops_based/distributed_prop.py"]}
{"id": "C50", "title": "Mass scalers scale", "statement": "The mass computed by a component that has a mass scaler is proportional to the scaler: scaler t gives t times the mass at scaler one, for all other inputs.", "quantifier": "all real inputs and scalers, all option values", "why_tests_cant": "all reals; a test fixes the scaler at a few values", "anchors": ["aviary/subsystems/mass/flops_based"]}
{"id": "C51", "title": "Masses of a positive aircraft are positive", "statement": "A FLOPS mass component with positive inputs and positive option numbers gives a positive mass.", "quantifier": "all positive real inputs and options", "why_tests_cant": "all reals", "anchors": ["aviary/subsystems/mass/flops_based"]}
{"id": "C52", "title": "Unsteady flight conditions agree with the steady ones and report true rates", "statement": "With the speed given as TAS, EAS or Mach, the unsteady component computes the same speeds and dynamic pressure as the steady one, the rates it reports are the time derivatives of those speeds, and every partial OpenMDAO uses is the true derivative.", "quantifier": "all positive densities and speeds of sound, all speeds and rates, any number of nodes", "why_tests_cant": "all reals, all node counts", "anchors": ["aviary/mission/solved_two_dof/ode/unsteady_solved_flight_conditions.py: UnsteadySolvedFlightConditions"]}
{"id": "C53", "title": "Takeoff and landing estimates have exact partials and consistent kinematics", "statement": "For the simplified takeoff and landing and for the landing segments every partial OpenMDAO uses is the true derivative; the maximum lift at the stall speed carries the weight; the descent angle and glide distance agree with sink rate and altitude; the ground roll is positive; takeoff conserves mass.", "quantifier": "all positive masses, areas, densities, lift coefficients and speeds in the stated ranges", "why_tests_cant": "all reals", "anchors": ["aviary/mission/energy_state/phases/simplified_takeoff.py", "aviary/mission/energy_state/phases/simplified_landing.py", "aviary/mission/two_dof/ode/landing_eom.py"]}
{"id": "C54", "title": "The control point fit solves the least squares problem", "statement": "The residuals of the cubic coefficients of PolynomialFit vanish exactly at the cubics with the least sum of squared errors; control points that lie on a cubic are reproduced.", "quantifier": "any number of control points, all abscissas and ordinates", "why_tests_cant": "all reals, unbounded number of points", "anchors": ["aviary/mission/two_dof/polynomial_fit.py: PolynomialFit.apply_nonlinear"]}
{"id": "C55", "title": "The shipped atmosphere tables describe a physical atmosphere", "statement": "All 13 tables have strictly increasing altitudes with one coefficient row more than altitudes and contain altitude zero; at every altitude of the range the temperature is positive and, except on Venus, so are pressure and density; neighbouring cubics meet up to 1e-12; in the standard atmosphere pressure and density fall with altitude and obey the gas law at the table points; the sea level density handed to the mission is the density of the component at altitude zero.", "quantifier": "all real altitudes in the range of each of the 13 tables", "why_tests_cant": "a cubic can leave the range of its end points between two table points; tests evaluate a few altitudes", "anchors": ["aviary/subsystems/atmosphere/data/*.py", "aviary/subsystems/atmosphere/atmosphere.py: AtmosphereComp.compute", "aviary/subsystems/atmosphere/utils/get_atmosphere_data.py"]}
{"id": "C56", "title": "Declared partials of GASP systems, equipment, crew and landing gear masses are exact", "statement": "For every component of the GASP systems, operating items, furnishings, controls and landing gear masses the partial that OpenMDAO uses is the derivative of what compute assigns, for every output and input, smooth and not smooth. The main gear and the nose gear together are the landing gear; emergency equipment, oxygen system and passenger service never get lighter with more passengers; the cabin crew never gets lighter on either side of 40 passengers.", "quantifier": "all real inputs in the stated domain (positive lengths, areas, masses where a power, root or quotient needs it), all option values", "why_tests_cant": "derivative of a real function at every point of an unbounded domain; finite differences and complex step sample points and have rounding error", "anchors": ["aviary/subsystems/mass/gasp_based/air_conditioning.py", "aviary/subsystems/mass/gasp_based/anti_icing.py", "aviary/subsystems/mass/gasp_based/apu.py", "aviary/subsystems/mass/gasp_based/avionics.py", "aviary/subsystems/mass/gasp_based/cargo_containers.py", "aviary/subsystems/mass/gasp_based/control.py", "aviary/subsystems/mass/gasp_based/crew.py", "aviary/subsystems/mass/gasp_based/electrical.py", "aviary/subsystems/mass/gasp_based/emergency_equipment.py", "aviary/subsystems/mass/gasp_based/engine_oil.py", "aviary/subsystems/mass/gasp_based/furnishings.py", "aviary/subsystems/mass/gasp_based/hydraulics.py", "aviary/subsystems/mass/gasp_based/instruments.py", "aviary/subsystems/mass/gasp_based/landing.py", "aviary/subsystems/mass/gasp_based/oxygen_system.py", "aviary/subsystems/mass/gasp_based/passenger_service.py"]}
{"id": "C57", "title": "Declared partials of GASP wing, tail, engine and fixed masses are exact", "statement": "For the strut, fold, wing total, tail, payload, engine, pod and electric augmentation components and for the wing mass parameters the partial that OpenMDAO uses is the derivative of what compute assigns, for every output and input.", "quantifier": "all real inputs in the stated domain (positive lengths, areas, masses where a power, root or quotient needs it), all option values", "why_tests_cant": "derivative of a real function at every point of an unbounded domain; finite differences and complex step sample points and have rounding error", "anchors": ["aviary/subsystems/mass/gasp_based/wing.py: StrutAndFoldMass, WingMassTotal", "aviary/subsystems/mass/gasp_based/fixed.py: MassParameters, PayloadGroup, ElectricAugmentationMass, HorizontalTailMass, VerticalTailMass", "aviary/subsystems/mass/gasp_based/fixed.py", "aviary/subsystems/mass/gasp_based/engine.py: TotalEngineMass, EnginePodMass, AdditionalEngineMass"]}
{"id": "C58", "title": "The Hamilton Standard propeller method interpolates its tables and ends with a physical result", "statement": "The interpolation routines reproduce the table at its points, hold the end values outside, reproduce quadratics inside, are continuous with continuous slope and, in two variables, are the product of the one-variable rules; the shipped tables are increasing; the thrust iteration returns a positive thrust coefficient within 0.1 % of its target, zero or an error; at the design lift coefficient there is always a result; thrust times speed is installed efficiency times shaft power.", "quantifier": "all tables of any length, all real arguments, all numbers of blades", "why_tests_cant": "interpolation between table points, iteration over all inputs", "anchors": ["aviary/subsystems/propulsion/propeller/hamilton_standard.py: _unint, _biquad, PreHamiltonStandard.compute, HamiltonStandard.compute, PostHamiltonStandard.compute"]}
{"id": "C59", "title": "A Fortran deck is read as exactly its assignments and every value is kept", "statement": "A deck of namelists and free lines is read as its assignments in their order with their namelists, whatever the white space, comments, empty lines, trailing commas and number of assignments per line; a name stands for the variables that have a Fortran name ending with it; every assignment gives each of its variables a value among the inputs or unused values and changes no other variable; an input has the values of the last assignment that stands for it; element assignments keep all other elements; scaler variables become factors or fixed values by their size.", "quantifier": "all decks, all texts of ASCII characters, all metadata tables", "why_tests_cant": "all layouts of all decks, any order of assignments", "anchors": ["aviary/utils/fortran_to_aviary.py: parse_input_file", "aviary/utils/fortran_to_aviary.py: process_and_store_data", "aviary/utils/fortran_to_aviary.py: set_value", "aviary/utils/fortran_to_aviary.py: update_name", "aviary/utils/fortran_to_aviary.py: update_flops_scaler_variables, update_gasp_scaler_variables"]}
{"id": "C60", "title": "The partials of the FLOPS based aerodynamics are the derivatives of its outputs", "statement": "Every declared partial of lift, drag, ground effect, induced drag with and without forward sweep, buffet lift, compressibility drag, lift dependent drag, the residuals of the skin friction, each surface of the skin friction drag and the battery equals the derivative of the modelled output with respect to that input, at every node and for every table; the interpolation at the edges of the lift dependent drag is characterised exactly.", "quantifier": "all options, all real inputs of the stated domain, all node counts, all interpolated tables", "why_tests_cant": "finite differences at a few points cannot show equality of the derivatives everywhere, nor for other tables", "anchors": ["aviary/subsystems/aerodynamics/flops_based/lift.py", "aviary/subsystems/aerodynamics/flops_based/drag.py", "aviary/subsystems/aerodynamics/flops_based/ground_effect.py", "aviary/subsystems/aerodynamics/flops_based/induced_drag.py", "aviary/subsystems/aerodynamics/flops_based/buffet_lift.py", "aviary/subsystems/aerodynamics/flops_based/compressibility_drag.py", "aviary/subsystems/aerodynamics/flops_based/lift_dependent_drag.py", "aviary/subsystems/aerodynamics/flops_based/skin_friction.py", "aviary/subsystems/aerodynamics/flops_based/skin_friction_drag.py", "aviary/subsystems/energy/battery_sizing.py"]}
{"id": "C61", "title": "The partials of the GASP based geometry are the derivatives of its outputs, with the exceptions", "statement": "Every declared partial of the fuselage, wing, strut, fold, fuel volume, tail, cable, nacelle and engine sizes of the GASP based geometry, for tube and wing and for blended wing body, equals the derivative of the modelled output with respect to that input (of the fuel volume of a blended wing body: the partials with respect to the gear location only); the exceptions are named and their error is given exactly; the exposed wing share and the exposed nacelle share are joined smoothly at the borders of their cases, including the border points.", "quantifier": "all options, all real inputs of the stated domain", "why_tests_cant": "finite differences at a few points cannot show equality of the derivatives everywhere, nor at the borders of the cases", "anchors": ["aviary/subsystems/geometry/gasp_based/electric.py", "aviary/subsystems/geometry/gasp_based/empennage.py", "aviary/subsystems/geometry/gasp_based/engine.py", "aviary/subsystems/geometry/gasp_based/fuselage.py", "aviary/subsystems/geometry/gasp_based/non_dimensional_conversion.py", "aviary/subsystems/geometry/gasp_based/strut.py", "aviary/subsystems/geometry/gasp_based/wing.py"]}
{"id": "C62", "title": "Design loads, fuselage masses and fuel masses of GASP: exact partials and limits, with the exceptions", "statement": "Every declared partial of the transport design speeds, of the lift curve slope, of the load factors where they differ and without smoothing, of the fuselage masses, of the fuel system, of the fuel mass and of the wing fuel equals the derivative of the modelled output, the exceptions being named with the exact condition or error; the wing fuel is the smaller of its volume limit and its take-off limit; the capacity without the unusable fuel is the smaller of the carried fuel and the gross mass without the operating mass; the design fuel is the required fuel exactly if the fuel system mass is consistent with it; the ultimate load factor is 3 / 2 of the greatest of manoeuvre, cruise gust and dive gust load factor; cruise and dive speeds, Mach number and density ratio respect their limits; in the categories 0, 1 and 2 the speeds of a light blended wing body are those of a tube and wing aircraft whose wing loading is the gross mass over the exposed wing area.", "quantifier": "all options, all real inputs of the stated domain", "why_tests_cant": "finite differences at a few points cannot show equality of the derivatives everywhere, and a test of a limit sees one side of it only", "anchors": ["aviary/subsystems/mass/gasp_based/design_load.py", "aviary/subsystems/mass/gasp_based/fuel.py"]}
{"id": "C63", "title": "GASP aerodynamics: exact partials, inverse lift relations and stall, with the exceptions", "statement": "Every declared partial of the lift and drag forces, of the form factors, of the wing and fuselage interference, of the lift curve slope of the body and of the lift coefficients (take-off and landing, clean, from the angle of attack and to it, conventional and blended wing body) equals the derivative of the modelled output, the exceptions being named with the exact condition; the angle of attack and the lift coefficient are inverse to each other, as are lift and lift coefficient; at the stall angle the lift coefficient is the maximum lift coefficient, clean and with full flaps; the lift coefficient lies on the line between no flaps and full flaps; the induced drag factor of a blended wing body is at most 0.975.", "quantifier": "all options, all real inputs of the stated domain", "why_tests_cant": "finite differences at a few points cannot show equality of the derivatives everywhere, and a test of an inverse relation sees a few values only", "anchors": ["aviary/subsystems/aerodynamics/gasp_based/common.py", "aviary/subsystems/aerodynamics/gasp_based/gasp_aero_coeffs.py", "aviary/subsystems/aerodynamics/gasp_based/interference.py", "aviary/subsystems/aerodynamics/gasp_based/gaspaero.py: UFac, LiftCoeff, BWBLiftCoeff, LiftCoeffClean, BWBLiftCoeffClean, SIWB"]}
