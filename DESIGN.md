# Formal model of Aviary: design and trusted base

This directory contains a Coq 8.16.1 model of parts of OpenMDAO/Aviary (the Python source is read
as text from /repo at its pinned commit and is neither run nor changed) together with machine-checked
theorems. `properties.jsonl` lists the properties, `MANIFEST.json` maps them to theorems,
`rocq/theories` has the development, `seeded/LOG.jsonl` logs the wrong-program experiments.

## Layout

* `*Model.v`: definitions only. Each carries a comment citing the file and lines in /repo that it
  models and, where it simplifies, says so.
* `*Spec.v` (or the head of the proof file): small specifications that do not use the model's helpers.
* `*Proofs.v`: lemmas.
* `*Props.v`: the property theorems, each closed by `exact lemma`, with `Print Assumptions` beneath,
  and `Example`s showing that the hypotheses are met by concrete non-trivial cases.

## Conventions

* A Python exception is a value (`Err e`); a mutated object becomes a returned new value, except
  where the property is about aliasing, in which case there is an explicit heap.
* Python `dict` is an insertion-ordered association list with unique keys.
* Floating point numbers are modelled as mathematical reals (`R`) in the component models and as
  rationals (`Q`) or integers (`Z`) in the decision logic. Rounding, overflow, NaN and infinities are not
  modelled; division by zero is never relied on: theorems carry the non-zero hypotheses.
* numpy arrays of shape (nn,) whose operation is element-wise are modelled by the function of one
  element; vector operations that mix elements (cumsum, dot, sum) are modelled over lists.

## Trusted base

* Coq's kernel (8.16.1) and the reading of the Python source by the author.
* Axioms reported by `Print Assumptions` (see the table at the end): discrete files are closed under
  the global context; files over the reals use only the standard library's axioms
  `ClassicalDedekindReals.sig_forall_dec`, `ClassicalDedekindReals.sig_not_dec`,
  `FunctionalExtensionality.functional_extensionality_dep` and where Coquelicot
  needs it `Classical_Prop.classic` or `ClassicalEpsilon.constructive_indefinite_description`.
* OpenMDAO, dymos, numpy are outside the model. What is assumed of them is written next to the
  definition that depends on it (for example the affine unit-conversion rule).


## Per-property plan and status

### C01 NamedValues behaves as an insertion-ordered last-write-wins map  —  proved

*Claim.* After any sequence of set_val / update / delete / clear calls on a NamedValues object, get_item(key) returns exactly the value and units of the last successful write of key that was not followed by a delete of key or a clear, and raises KeyError if there is none; `key in c`, len(c), keys() and iteration agree with it, each key appears once, and keys are iterated in the order of their first surviving write.

*Model and proof.* Association-list model of the Python dict (insertion ordered), operations as a state machine with errors as values; refinement to a specification that scans the raw history backwards.

*Theorems.* `C01_get_item_latest_write`, `C01_iteration_is_the_latest_writes`, `C01_iteration_order`

### C02 Failed container calls leave a precisely known state  —  proved

*Claim.* A set_val, get_val, get_item or delete that raises leaves the container unchanged; an update over an iterable that raises at its i-th entry leaves exactly the first i entries applied (update is not atomic) and nothing else changed.

*Model and proof.* Same model as C01; induction over the update list.

*Theorems.* `C02_single_calls_fail_without_effect`, `C02_which_calls_raise`, `C02_update_fails_after_exact_prefix`, `C02_update_atomic_refuted`

*Note.* Finding: update() is not atomic (witness C02_update_atomic_refuted).

### C03 deepcopy isolates, copy aliases  —  proved

*Claim.* Two handles related by deepcopy() never observe one another: for every sequence of mutations issued on either handle, reading the other returns what it would have returned had those mutations not happened. For copy() the opposite holds: the two handles share the collection, so every mutation through one is observed through the other.

*Model and proof.* Small heap model (object -> mapping cell), handles as cell references; non-interference by induction for deepcopy, observational equality for copy, witness that copy violates isolation.

*Theorems.* `C03_deepcopy_isolates`, `C03_copy_shares_everything`, `C03_copy_isolates_refuted`

*Note.* Finding: copy() shares the mapping, so a change through either handle shows in the other (C03_copy_isolates_refuted).

### C04 Unit conversion on read is lossless, path independent and shape preserving  —  proved

*Claim.* get_val in the stored units returns the stored value unchanged; reading in units v and writing back in v then reading in u gives the same number as reading directly in u; converting never changes the container kind or length of an iterable and keeps None entries None; a request for incompatible units raises and changes nothing, except for empty or all-None iterables, where it is accepted. Integer arrays are truncated on assignment, so only for them the round trip can lose data.

*Model and proof.* Units as dimension, scale and offset over the rationals (OpenMDAO convert_units: (x + offset1) * factor1 / factor2 - offset2); structural recursion over value shapes.

*Theorems.* `C04_same_units_identity`, `C04_conversion_preserves_quantity`, `C04_round_trip`, `C04_path_independent`, `C04_shape_preserved`, `C04_error_iff`, `C04_int_array_round_trip_refuted`, `C04_incompatible_always_raises_refuted`

*Note.* Findings: integer arrays lose fractions on conversion; empty or all-None iterables accept incompatible units.

### C05 AviaryValues never stores an entry that contradicts the metadata  —  proved

*Claim.* After any sequence of AviaryValues.set_val / update / delete calls, every stored entry whose key is in the metadata has units compatible with the metadata units and a value that passes the metadata type check; a rejected call stores nothing.

*Model and proof.* Value universe mirroring the Python kinds used (bool, int, float, str, enum, None, list, tuple, array); invariant by induction over the history.

*Theorems.* `C05_store_agrees_with_metadata`, `C05_rejected_call_stores_nothing`, `C05_conforming_value_stored_verbatim`, `C05_untyped_variable_rejected`

*Note.* A variable whose metadata has types None can never be set. Empty-string units pass the compatibility check.

### C06 The type check accepts exactly the values whose every leaf has a declared type  —  proved

*Claim.* For list, tuple and scalar values check_type accepts iff the container kind is allowed and every leaf, at any nesting depth, has one of the declared types, with bool accepted only where bool is declared. For numpy arrays only the first leaf is inspected.

*Model and proof.* Nested value type; specification as an inductive AllLeaves predicate; iff by nested induction; array exception shown with a witness.

*Theorems.* `C06_check_type_iff`, `C06_array_leaves_checked_refuted`

*Note.* Finding: only the first leaf of an array is inspected (C06_array_leaves_checked_refuted).

### C07 Type casting is idempotent and only ever yields declared types or the original value  —  proved

*Claim.* cast_type returns conforming values unchanged; a string for an enum option given by value or by (case-insensitive) member name is cast to that member and any other string raises; a cast scalar is either a declared type or the original value and casting it twice equals casting once; an iterable for a single non-enum type is cast element by element or left alone. Not guaranteed, with witnesses: element-wise casting of a list of strings for an enum option (it collapses to the first member), strict casting of strings in a bool list, lossless casting of a float to an int option.

*Model and proof.* Branch-by-branch model of cast_type and enum_setter; negative parts are shown by witnesses (the enum loop returns inside the first string element).

*Theorems.* `C07_conforming_values_unchanged`, `C07_scalar_cast_result`, `C07_scalar_cast_idempotent`, `C07_float_cast_keeps_number`, `C07_int_cast`, `C07_enum_by_value`, `C07_enum_by_name`, `C07_enum_unknown_raises`, `C07_iterable_cast_elementwise`, `C07_enum_list_elementwise_refuted`, `C07_bool_list_strict_refuted`, `C07_numeric_cast_lossless_refuted`, `C07_iterable_cast_idempotent_refuted`

*Note.* Findings: lists for enum options collapse to the first member, lists for bool options use truthiness, floats for int options are truncated, (int, float) list casting is not idempotent.

### C08 CSV data tables survive write then read  —  proved

*Claim.* Writing a table with write_data_file and reading the file back with read_data_file yields the same variable names in the same order, the same units, the same column values and the same input/output labels.

*Model and proof.* Character-level model of header/row rendering with padding and of the reader (comment strip, look-ahead split, header parse); number printing/parsing as parameters with a round-trip hypothesis.

*Theorems.* `C08_write_then_read`, `C08_parenthesised_units_refuted`, `C08_unitless_with_metadata_refuted`

*Note.* Hypotheses: names and units are words without white space, commas, semicolons, # or parentheses and are not the words input/output; one name is not a number; number printing round-trips. Findings: units with parentheses (lbm/(ft*s)) are written but raise on reading; a unitless column is read in metadata units; comments with a line break would be read as data (outside the model).

### C09 CSV reader keeps every number in its own column  —  proved

*Claim.* When every data row has one numeric cell per header cell and header names are distinct after alias resolution, the value list returned for a variable is exactly its column, in row order, also when unrecognised columns are skipped. With a blank cell or a repeated header name the alignment is lost without an error.

*Model and proof.* Token-level model of the reader; column specification by index; witnesses for blank cells and repeated names.

*Theorems.* `C09_columns_aligned`, `C09_short_row_rejected`, `C09_header_rejections`, `C09_late_text_rejected`, `C09_numbers_before_header_rejected`, `C09_alias_resolution`, `C09_alias_absent`, `C09_blank_cell_alignment_refuted`, `C09_repeated_name_alignment_refuted`

*Note.* Findings: a blank cell shifts the rest of the row (L98), a repeated header name misaligns later columns (L184-185, L202-204).

### C10 Metadata merge is a conflict-checked union  —  proved

*Claim.* merge_meta_data of any list of metadata dictionaries succeeds exactly when every definition of every variable agrees (up to the numeric tolerance, recursively) with the first definition of that variable in the list; the result then holds exactly the union of the variables, each with its first definition; a disagreement raises ValueError, an empty list IndexError.

*Model and proof.* Association maps; fold; specification by first definer and pairwise agreement.

*Theorems.* `C10_accepts_iff_definitions_agree`, `C10_result_is_union_first_wins`, `C10_errors`, `C10_order_independence_refuted`

*Note.* Findings: the tolerance is relative to the second value only, so acceptance depends on the order of the list (C10_order_independence_refuted); an empty list raises IndexError. Equality of other objects (py_eq) is a parameter assumed reflexive.

### C11 Variable hierarchy merge loses and changes nothing  —  proved

*Claim.* For hierarchies in which no name is a variable in one and an inner class in another: merge_hierarchies reports a conflict exactly when some path has two different strings, and otherwise yields exactly the union of the paths of all inputs, each with its original variable name. A conflict is reported even with mixed names.

*Model and proof.* Rose-tree model of nested classes; path-lookup specification.

*Theorems.* `C11_accepts_iff_no_conflict`, `C11_result_is_union`, `C11_conflict_rejected`, `C11_kind_clash_refuted`, `C11_inputs_unchanged_refuted`

*Note.* Findings: a name that is a variable in one hierarchy and a class in another is not detected and paths are lost (C11_kind_clash_refuted); deepcopy of a class is the class, so the merge changes the classes it was given, also transitively (C11_inputs_unchanged_refuted, heap model).

### C12 String-to-data conversion classifies every token  —  proved

*Claim.* convert_strings_to_data turns each token, stripped of brackets, into an integer exactly when it follows the integer grammar, into a float exactly when it follows the float grammar and contains a point, into a bool exactly when it spells true or false, and otherwise keeps it; decimal notation is read back to its value; a single token gives a scalar and a list gives a list of the same length and order.

*Model and proof.* Character-level model; grammar specification separate from the implementation.

*Theorems.* `C12_classification`, `C12_decimals_read_back`, `C12_shape`, `C12_scientific_notation_refuted`

*Note.* Finding: a number in scientific notation without a point (1e5, 1e-05 as printed by str) stays a string (C12_scientific_notation_refuted). Values are exact rationals; rounding to machine numbers is not modelled.

### C13 Fuel capacity preprocessing keeps tank capacities consistent with the total  —  proved

*Claim.* With FLOPS masses and a given total, preprocess_fuel_capacities succeeds exactly when the tank capacities that were not given can be completed with non-negative values so that wing, fuselage and auxiliary capacity add up to the total, and changes nothing; without a total it only sets absent fuselage and auxiliary capacities to zero; it is idempotent.

*Model and proof.* Option-valued inputs; decision procedure with errors; case analysis.

*Theorems.* `C13_accepts_iff_completable`, `C13_no_total_sets_zero`, `C13_other_methods_and_idempotence`

*Note.* Equality of capacities is exact (rational) equality.

### C14 Passenger and cargo preprocessing yields a self-consistent payload  —  proved

*Claim.* With FLOPS masses and non-negative counts, total passengers equal the sum of the class counts for design and for the mission afterwards; given class counts are kept; overbooking is reported exactly when it happens (VERBOSE) and a replaced mission total is reported (BRIEF). With GASP masses the cargo values follow the documented table, flown and design cargo never exceed the maximum, and given maximum and design values are kept.

*Model and proof.* Decision-procedure model over integers with provided flags.

*Theorems.* `C14_totals_match_classes`, `C14_values_kept`, `C14_reports`, `C14_design_override_reported_refuted`, `C14_gasp`, `C14_cargo_within_maximum`, `C14_cargo_table`, `C14_sizing_cargo_equal_when_all_given`, `C14_sizing_cargo_equal_refuted`

*Note.* Findings: a given design total that is replaced is never reported because design_pax_sum_provided is never set (C14_design_override_reported_refuted); in a sizing mission flown cargo is only made equal to design cargo when all three values were given, so a second pass changes the result of the first (C14_sizing_cargo_equal_refuted); with GASP masses a given economy count is overwritten.

### C15 Crew sizing rules are total, monotone and respect explicit input  —  proved

*Claim.* Flight crew, flight attendants and galley crew derived from the passenger count are non-decreasing in the passenger count, meet the documented ratios (at least one attendant per 50 passengers), and non-negative given values are kept; the cabin crew, if given, becomes attendants plus galley crew; the step is idempotent.

*Model and proof.* Integer functions with floor division; monotonicity lemmas.

*Theorems.* `C15_monotone`, `C15_ratios`, `C15_explicit_input`, `C15_baggage`

### C16 Engine count reconciliation keeps wing and fuselage engines consistent with the total  —  proved

*Claim.* For every engine model with non-negative counts, after preprocess_propulsion the number of wing plus fuselage engines equals the number of engines, except exactly when one engine has no mount, none was put on the wing and some on the fuselage; the total is the larger of the given total and the given mounts, given mounts are never reduced, the step is idempotent, and the aircraft totals are off by the number of exceptional models.

*Model and proof.* Branch-by-branch integer model; exact characterisation of inputs for which it fails, with witness.

*Theorems.* `C16_counts_consistent_iff`, `C16_kept_and_idempotent`, `C16_all_engines`, `C16_always_consistent_refuted`, `C16_odd_wing_warning_refuted`

*Note.* Findings: total 3 with 2 fuselage engines leaves the third engine unmounted (C16_always_consistent_refuted); the odd-wing-count warning looks at the count before distribution (C16_odd_wing_warning_refuted).

### C17 Engine vectorisation gives one entry per engine model with the documented priority  —  proved

*Claim.* After preprocess_propulsion every engine/nacelle variable that takes one value per engine has one entry per engine model, and entry i comes from engine model i if it defines the variable, else from the aircraft inputs (unless these hold an empty list), else from the metadata default; repeating the step changes nothing. Variables that take a list per engine are joined in order when every model has its own list.

*Model and proof.* List model; specification per index.

*Theorems.* `C17_one_entry_per_engine`, `C17_stored`, `C17_multidimensional_own_lists`, `C17_multidimensional_aircraft_list_refuted`, `C17_empty_list_refuted`, `C17_list_default_refuted`

*Note.* Findings: a list in the aircraft inputs for a list-per-engine variable (wing_locations, additional_mass_fraction) is taken whole by every engine model and grows on every pass (C17_multidimensional_aircraft_list_refuted); an empty list shifts entries; a list default mixed with numbers raises ValueError.

### C18 Engine deck acceptance and the columns of an accepted deck  —  proved

*Claim.* Exact acceptance condition of _check_data for every set of columns and values. The intended condition, all mandatory columns present and net thrust equal to gross thrust minus ram drag, is false of the code: a deck is accepted exactly when at least one mandatory column is present and no row agrees within tolerance. An accepted table has one entry per row in every column, and its thrust is net (or gross minus ram) plus tailpipe thrust.

*Model and proof.* Finite set-of-columns decision procedure; refuted where the required-variable test is inverted.

*Theorems.* `C18_accepts_iff`, `C18_mandatory_columns_refuted`, `C18_thrust_check_inverted`, `C18_accepted_columns`, `C18_ignore_negative_thrust_fails`

*Note.* Findings: the required-variable test is inverted (L532-541: only a deck with none of the mandatory columns is rejected, C18_mandatory_columns_refuted); the thrust comparison is inverted (L471: agreeing decks are rejected, C18_thrust_check_inverted); ignore_negative_thrust=True raises IndexError for every ordinary deck (L544-547, C18_ignore_negative_thrust_fails).

### C19 Packing an engine deck into the 3-D grid keeps every data point at its own flight condition  —  proved

*Claim.* Given a deck sorted by Mach number and altitude whose distinct values are farther apart than the tolerances, with at least two rows per flight condition, two altitudes per Mach number (the last excepted) and no more altitudes at the last Mach number than elsewhere, _count_data and _pack_data place each row exactly once in the cell of its Mach number and altitude and record the number of rows of each cell, provided the last flight condition is not the only largest one; otherwise they raise IndexError. Each condition is necessary.

*Model and proof.* Loop-by-loop model with explicit index errors; refinement to grouping by Mach and altitude; witnesses for single-point conditions and for a largest last group.

*Theorems.* `C19_pack`, `C19_sorted_deck_splits`, `C19_single_altitude_rejected`, `C19_every_row_kept_refuted`, `C19_close_mach_numbers_refuted`

*Note.* Findings: one-row flight conditions swallow a row of the next condition, a last Mach number with more altitudes loses them, a largest last condition raises IndexError (C19_every_row_kept_refuted); sorting is exact but grouping is by tolerance, so Mach numbers closer than 0.01 split a flight condition (C19_close_mach_numbers_refuted). Modelled for INTERPOLATION_SORT mach; np.lexsort itself is not modelled (a sorted deck is the hypothesis).

### C20 Throttle normalisation maps each flight condition onto [0, 1] preserving order  —  proved

*Claim.* normalize maps any column with two different values by an increasing affine map onto [0, 1] reaching both ends, and a constant column to nan; hybrid throttle keeps signs and scales each sign by its own extreme; local normalisation of a faithfully packed deck is, row for row, each flight condition normalised on its own.

*Model and proof.* List model over reals/rationals.

*Theorems.* `C20_normalize`, `C20_constant_gives_nan`, `C20_hybrid`, `C20_local`, `C20_local_length_refuted`

*Note.* Finding: with a one-row flight condition the locally normalised column has a different length from the deck (C20_local_length_refuted). nan is modelled as a missing value.

### C21 Reference thrust, scaled thrust and scale factor agree after preprocessing  —  proved

*Claim.* For every provided subset of reference thrust, scaled thrust and scale factor: _set_reference_thrust accepts exactly the stated inputs; afterwards scaled = scale factor x reference; given reference thrust and scale factor are kept; a given scaled thrust is kept or moved by at most the comparison tolerance; a missing reference is the largest sea-level static thrust of the deck; a second pass changes nothing.

*Model and proof.* Decision procedure over optional reals.

*Theorems.* `C21_consistent`, `C21_accepts_iff`, `C21_idempotent`, `C21_scaled_thrust_kept_refuted`

*Note.* Finding: a given scaled thrust is changed silently (below DEBUG verbosity) when it differs from scale factor x reference by less than the tolerance (C21_scaled_thrust_kept_refuted). Division by a zero reference is an error in the model (Python float; inf for numpy).

### C22 Reserve phases are separated from main phases without loss  —  proved

*Claim.* separate_reserve_phases accepts exactly the phase lists in which no main phase follows a reserve phase, and then main ++ reserve is the list of phases that carry user options, in order.

*Model and proof.* List model; iff theorem.

*Theorems.* `C22_accepts_iff_ordered`, `C22_rejects_with_ValueError`, `C22_nothing_lost`, `C22_falsy_flag_refuted`

*Note.* Finding: any reserve flag other than the object False (0, None, numpy.bool_(False)) makes a reserve phase; phases without user_options are dropped from both lists.

### C23 Fuel bookkeeping receives both ends of the reserve mission  —  proved

*Claim.* The reserve fuel component is connected to the initial mass of the first reserve phase and to the final mass of the last one exactly when there are at least two reserve phases; with exactly one reserve phase the initial-mass connection is lost.

*Model and proof.* Dictionary model; proved for two or more reserve phases, refuted for exactly one.

*Theorems.* `C23_two_or_more_reserve_phases`, `C23_no_reserve_phase`, `C23_both_ends_iff_two`, `C23_single_reserve_phase_refuted`, `C23_no_main_phase_IndexError`

*Note.* Finding: with exactly one reserve phase energy_builder.py L90 overwrites the entry written at L84, so reserve_fuel_burned.mass_initial stays unconnected (C23_single_reserve_phase_refuted).

### C24 Phase linking links each consecutive pair exactly when neither end forbids it  —  proved

*Claim.* A state (mass, distance, time, altitude, Mach or velocity) is linked across two consecutive phases exactly when the phase-type, optimise and pin options of both ends say so; no pair is linked twice in one call; the link is a connection or a scaled constraint as requested; the fixed initial value of a linked phase is released exactly in the stated cases.

*Model and proof.* Decision table model over option values including the falsy value 0.0; iff theorems over phase lists of any length.

*Theorems.* `C24_links_iff`, `C24_analytic_iff`, `C24_once`, `C24_scaling`, `C24_released_iff`, `C24_succeeds`, `C24_pinned_not_linked_refuted`, `C24_pinned_not_linked`, `C24_always_succeeds_refuted`, `C24_release_own_option_refuted`, `C24_consecutive_analytic_refuted`, `C24_consecutive_analytic`

*Note.* Findings: a phase whose initial value is pinned at 0.0 is treated as not pinned (C24_pinned_not_linked_refuted); opt2 of the analytic loops is unbound for the first pair or left over from the regular loop (C24_always_succeeds_refuted, C24_release_own_option_refuted); two consecutive Breguet phases are linked initial to initial (C24_consecutive_analytic_refuted).

### C25 Composite objective weights are normalised  —  proved

*Claim.* add_composite_objective turns any non-empty list of well-formed objective descriptions (number and order arbitrary) into one expression whose value is the weighted mean of the described outputs, with inputs connected in order; it accepts exactly the stated lists; the reference is chosen only for a single objective; add_composite_objective_adv normalises each weight level. Where the sum of weights is zero the result is an error.

*Model and proof.* Parser over argument forms; rational/real arithmetic.

*Theorems.* `C25_weighted_mean`, `C25_order`, `C25_zero_total`, `C25_accepts_iff`, `C25_reference`, `C25_names`, `C25_no_arguments_refuted`, `C25_malformed_rejected_refuted`, `C25_wrong_weight_kind_refuted`, `C25_malformed_replaced`, `C25_direction`, `C25_direction_refuted`, `C25_default_model_refuted`, `C25_inputs_distinct_refuted`, `C25_adv_normalised`, `C25_adv_direction_refuted`, `C25_adv_connects`, `C25_adv_names_refuted`, `C25_objective`, `C25_same_direction_refuted`

*Note.* Findings: an empty argument list gives an empty expression (C25_no_arguments_refuted); malformed arguments are replaced by a default objective instead of being rejected, and a text weight fails with TypeError (C25_malformed_rejected_refuted, C25_malformed_replaced, C25_wrong_weight_kind_refuted); a negative weight total turns the direction round (C25_direction_refuted); the default model name need not exist (C25_default_model_refuted); two different outputs can share one input name (C25_inputs_distinct_refuted); add_composite_objective_adv connects from the expression to the output, the wrong way round, and builds invalid input names (C25_adv_direction_refuted, C25_adv_names_refuted); a mass objective changes direction when it becomes part of a composite (C25_same_direction_refuted).

### C26 The payload-range runs use the loads and gross masses of the four points  —  proved

*Claim.* run_payload_range accepts exactly the stated problems; its table then consists of the four points with the described off-design inputs: design load, reduced load that leaves room for full tanks exactly when the aircraft cannot lift full fuel with full payload, and the empty ferry flight at empty mass plus fuel; run_off_design_mission turns its arguments into exactly the stated inputs or errors.

*Model and proof.* Decision procedure with explicit unbound-variable errors; mission results as oracle.

*Theorems.* `C26_table_iff`, `C26_load`, `C26_reduced_iff`, `C26_ferry_gross`, `C26_cruise_after`, `C26_tank_limited`, `C26_skipped_point_refuted`, `C26_gasp`, `C26_gasp_refuted`, `C26_no_cruise`, `C26_original_unchanged_refuted`, `C26_declined_iff`, `C26_unconverged_declined_refuted`, `C26_ferry_bound_refuted`, `C26_seats_refuted`, `C26_seats`, `C26_off_design_errors`, `C26_off_design_inputs`

*Note.* Findings: fuel_3 is unbound when the aircraft can lift full fuel with full payload (C26_skipped_point_refuted); GASP without a cargo mass raises TypeError (C26_gasp_refuted); the cruise duration bound of the original problem is doubled because the copy is shallow (C26_original_unchanged_refuted); a problem that did not converge is not declined when quiet (C26_unconverged_declined_refuted); the ferry gross-mass bound is the design gross mass (C26_ferry_bound_refuted); rounding of seats loses passengers (C26_seats_refuted). Mission runs are an oracle.

### C27 Saved sizing results reload to the same inputs  —  proved

*Claim.* For every input table of savable values save_results writes a file that _read_sizing_json reads; every known name then holds the same scalar, enum member (every member of every declared enumeration) or list in the same units, gross masses hold the sized values, unknown names are dropped and nothing is added; reload succeeds exactly when the inputs named Mission.GROSS_MASS; what saving leaves behind in the inputs is characterised.

*Model and proof.* Encode/decode model over the value universe of C05.

*Theorems.* `C27_round_trip`, `C27_scalars_unchanged`, `C27_aviary_enums`, `C27_unknown_dropped`, `C27_inputs_after`, `C27_reload_iff`, `C27_enum_list_refuted`, `C27_inputs_unchanged_refuted`, `C27_empty_list_refuted`, `C27_kind_kept_refuted`, `C27_design_gross_refuted`, `C27_reload_refuted`, `C27_gross_list_refuted`, `C27_enum_names`, `C27_legacy_enum_text`, `C27_later_path_refuted`

*Note.* Findings: a list of enums reloads as its first member (C27_enum_list_refuted); saving converts lists of the problem in place (C27_inputs_unchanged_refuted); an empty list makes the whole table unsavable (C27_empty_list_refuted); paths come back as text and arrays as lists (C27_kind_kept_refuted); a design gross mass among the inputs is saved as the mission gross mass (C27_design_gross_refuted); a problem naming only the design gross mass cannot be reloaded (C27_reload_refuted); a gross mass given as a list cannot be read (C27_gross_list_refuted); a list with a path behind a text cannot be saved (C27_later_path_refuted). The JSON text itself is not modelled.

### C28 Mission fuel bookkeeping balances  —  proved

*Claim.* Fuel burned, reserve fuel (burned + margin + additional), the mass residual constraint and block fuel computed after the mission satisfy the fuel balance: residual zero iff the fuel loaded equals mission fuel plus total reserve, and then the capacity constraint holds iff that fuel plus the unusable fuel fits the tanks. With exactly one reserve phase the reserve fuel ignores the mass at its start.

*Model and proof.* Real-valued component graph with promotion by name.

*Theorems.* `C28_balance_with_reserve`, `C28_balance_without_reserve`, `C28_residual_zero_iff_fuel_matches`, `C28_feasible_fuel_fits`, `C28_bad_missions_rejected`, `C28_mass_closes`, `C28_single_reserve_phase_refuted`

*Note.* End to end from the mission description and mass timeseries. Uses the standard real-number axioms. Finding: single reserve phase, see C23.

### C30 The sigmoid blend stays in (0,1), is monotone and has the declared derivative  —  proved

*Claim.* For an array argument and mu <> 0 every element of sigmoidX lies in [0,1), equals the logistic function where it is not cut off, is monotone in x, is 1/2 at x0, satisfies the reflection identity, and dSigmoidXdx is its true derivative everywhere except at the cut-off point; mu = 0 is rejected. Scalar arguments behave the same only for small mu, and the scalar derivative always raises.

*Model and proof.* Reals with Coquelicot; guard of the array and scalar branches modelled.

*Theorems.* `C30_array_call_and_derivative`, `C30_monotone`, `C30_half_at_center_and_reflection`, `C30_cut_off_error`, `C30_derivative_at_cut_off_refuted`, `C30_zero_steepness_rejected`, `C30_scalar_call_small_steepness`, `C30_scalar_call_refuted`, `C30_scalar_derivative_refuted`, `C30_array_threshold`

*Note.* Findings: the scalar branch of sigmoidX multiplies by mu in its cut-off test (L49), so large mu gives 0 (C30_scalar_call_refuted); dSigmoidXdx of a scalar raises UnboundLocalError because dtype is unset (C30_scalar_derivative_refuted); dSigmoidXdx with an x0 array raises as soon as one element is cut off (C30_array_threshold). Array arguments only otherwise.

### C31 Smooth max/min bracket the true max/min and have correct derivatives  —  proved

*Claim.* max(x,b) <= smooth_max(x,b,mu) <= max(x,b)+ln 2/mu, min(x,b)-ln 2/mu <= smooth_min(x,b,mu) <= min(x,b) and the derivative helpers equal the true derivatives.

*Model and proof.* Coquelicot.

*Theorems.* `C31_smooth_max_brackets`, `C31_smooth_min_brackets`, `C31_closed_forms`, `C31_derivatives`, `C31_derivatives_are_weights`

*Note.* Real-number semantics: overflow of exp for large mu*x in smooth_min is not modelled.

### C32 The smooth integer functions fix the integers, are monotone and have correct derivatives  —  proved

*Claim.* sin_int and sin_int4 map integers as documented, are non-decreasing and their derivative helpers equal the true derivatives.

*Model and proof.* Coquelicot.

*Theorems.* `C32_fixed_points`, `C32_monotone_and_periodic`, `C32_approximates_integer_part`, `C32_derivatives`

### C33 Engine performance scaling has exact partials  —  proved

*Claim.* For every input the partial derivatives returned by the engine scaling and sizing components equal the true derivatives of their outputs.

*Model and proof.* Coquelicot is_derive for each input.

*Theorems.* `C33_EngineScaling`, `C33_scales`, `C33_not_scaled`, `C33_fuel`, `C33_mach_one_refuted`, `C33_shaft_power_relation`, `C33_SizeEngine`, `C33_sizing_agrees`

*Note.* Stated for any subset of the deck variables and any number of nodes. Findings: at Mach one the fuel flow jumps when the subsonic and supersonic factors differ, and no partial with respect to Mach is declared (C33_mach_one_refuted); rotational speed and torque are both scaled, so shaft power is no longer their product (C33_shaft_power_relation).

### C34 Flight-condition conversions are mutually inverse and have exact partials  —  proved

*Claim.* TAS, EAS and Mach input modes give the same dynamic pressure for the same flight condition, converting back and forth returns the original speed, and every declared partial equals the true derivative.

*Model and proof.* Coquelicot.

*Theorems.* `C34_FlightConditions_TAS`, `C34_FlightConditions_EAS`, `C34_FlightConditions_MACH`, `C34_tas_eas_tas`, `C34_eas_tas_eas`, `C34_tas_mach_tas`, `C34_mach_tas_mach`, `C34_sea_level`

*Note.* Stated for any number of nodes: a partial is exact on its own node and the output does not depend on other nodes.

### C35 Atmosphere component chain rule  —  proved

*Claim.* Each derivative output and partial of the atmosphere component equals the true derivative with respect to the altitude input in both geodetic and geopotential mode.

*Model and proof.* Per-interval cubic model; refuted for the second derivative of the speed of sound in geodetic mode.

*Theorems.* `C35_bin`, `C35_AtmosphereComp`, `C35_dsos_output`, `C35_dsos_geopotential`, `C35_dsos_geometric_refuted`, `C35_dsos_wrong`, `C35_gas_law`, `C35_sound`, `C35_delta_T_refuted`

*Note.* Exact for any table at altitudes that are not table points, any number of nodes. Findings: in geodetic mode the partial of dsos_dh is multiplied by the square of dz_dh instead of dz_dh (C35_dsos_geometric_refuted, C35_dsos_wrong); the output dsos_dh is the slope of the speed of sound only where the table of temperature slopes agrees with the temperature table (C35_dsos_output); the Atmosphere group never passes delta_T_Celcius on (C35_delta_T_refuted).

### C36 FLOPS fuel capacity components have exact partials and conserve capacity  —  proved

*Claim.* Wing, fuselage and auxiliary fuel capacities have exact partials and add up to the total as documented.

*Model and proof.* Coquelicot.

*Theorems.* `C36_conservation`, `C36_total_undetermined`, `C36_conservation_override`, `C36_supplied_total`

*Note.* Exact partials of the four components are the C49 theorems. Finding: the components form a cycle that returns whatever total it started from (C36_total_undetermined); the total is determined only if the user supplies it. Groups run each component once in order.

### C37 FLOPS mass summation is a conservation law  —  proved

*Claim.* The chain of FLOPS mass summation components is linear with the declared partials, and the zero-fuel mass equals the sum of every leaf mass exactly once, in both the standard and the alternate path.

*Model and proof.* Real-valued model; expansion to leaves.

*Theorems.* `C37_EmpennageMass`, `C37_PropulsionMass`, `C37_FlightControls`, `C37_SystemsEquipmentMass`, `C37_AltSystemsEquipmentMassBase`, `C37_AltSystemsEquipmentMass`, `C37_EmptyMass`, `C37_AltEmptyMass`, `C37_OperatingItemsMass`, `C37_OperatingMass`, `C37_ZeroFuelMass`, `C37_UsefulLoadMass`, `C37_StructureMass`, `C37_conservation`, `C37_conservation_alternate`

*Note.* Conservation holds for any number of engine types. Groups run each component once in order.

### C38 GASP mass summation is a conservation law  —  proved

*Claim.* The GASP mass summation components have the declared partials, and the zero-fuel mass and the useful load equal the sum of every leaf mass exactly once; with totals supplied by the caller, each other total is still the sum of its parts.

*Model and proof.* Real-valued model; expansion to leaves.

*Theorems.* `C38_EmpennageMass`, `C38_StructureMass`, `C38_PropulsionMass`, `C38_SystemsEquipmentMass`, `C38_EmptyMass`, `C38_OperatingItemsMass`, `C38_OperatingMass`, `C38_ZeroFuelMass`, `C38_UsefulLoadMass`, `C38_conservation`, `C38_override`

*Note.* The nine GASP summation components run once in order, as in C37. C38_override: when the caller supplies some totals, every other total is still the sum of its parts, read from the final values.

### C39 Throttle allocation conserves the aggregate throttle  —  proved

*Claim.* For every number of engine types the allocated throttles of a node sum to the aggregate throttle, and the declared partials equal the true derivatives.

*Model and proof.* Lists of reals.

*Theorems.* `C39_conserves`, `C39_bounded`, `C39_ThrottleAllocator`, `C39_PropulsionSum`, `C39_sum_of_engines`, `C39_PropulsionSumPre`, `C39_thrust_follows_throttle`

*Note.* Both allocation modes, any number of nodes and engine types; the index arithmetic of np.tile, np.repeat and row-major storage is part of the model.

### C40 Energy-state equations of motion are mutually consistent with exact partials  —  proved

*Claim.* With the thrust equal to the required thrust, the specific energy rate and altitude rate components reproduce the commanded climb rate and acceleration; all declared partials equal the true derivatives; range rate satisfies the velocity triangle.

*Model and proof.* Coquelicot.

*Theorems.* `C40_GlideSlopeForces`, `C40_FlareSumForces`, `C40_GroundSumForces`, `C40_RangeRate`, `C40_RequiredThrust`, `C40_TakeoffStallSpeed`, `C40_DistanceRates_climbing`, `C40_DistanceRates_ground`, `C40_SumForces_climbing`, `C40_SumForces_ground`, `C40_Accelerations`, `C40_VelocityRate`, `C40_FlightPathAngleRate`, `C40_ClimbGradientForces`, `C40_AltitudeRate`, `C40_SpecificEnergyRate`, `C40_ground_unassigned`, `C40_required_thrust_consistent`, `C40_level_thrust`, `C40_range_rate_triangle`, `C40_climb_triangle`, `C40_newton_frames`, `C40_glide_slope_balance`, `C40_stall_lift`, `C40_ground_friction`, `C40_newton_second`

*Note.* In ground mode DistanceRates and SumForces declare an output that compute never assigns (C40_ground_unassigned). range_rate raises AnalysisError when the climb rate reaches the speed; the theorem is about the other case.

### C41 Two-degree-of-freedom flight path equations have exact partials  —  proved

*Claim.* Every partial returned by the flight-path EOM equals the true derivative in the airborne and the ground-roll configuration, and altitude and distance rates satisfy the velocity triangle.

*Model and proof.* Coquelicot.

*Theorems.* `C41_GammaComp`, `C41_GroundrollEOM`, `C41_UnsteadySolvedEOM_flight`, `C41_UnsteadySolvedEOM_ground`, `C41_FlightPathEOM_flight`, `C41_FlightPathEOM_ground`, `C41_TakeoffEOM_flight`, `C41_TakeoffEOM_ground`, `C41_AccelerationRates`, `C41_EOMRates`, `C41_TaxiFuelComponent`, `C41_VRotateComp`, `C41_FlightConstraints`, `C41_ClimbAtTopOfClimb`, `C41_triangles`, `C41_climb_angle`, `C41_steady_climb`, `C41_normal_force`, `C41_unsteady_agrees`, `C41_track_angle`, `C41_taxi_conserves`, `C41_minimum_speed`, `C41_rotation_speed`

*Note.* Stated for any number of nodes. Components with clipped normal force are proved away from the clipping point.

### C42 Breguet cruise range is additive over segments with exact partials  —  proved

*Claim.* Cruise range is the initial range plus the sum of segment ranges, is increasing for decreasing mass, and its partials for every node pair equal the true derivatives, for any number of nodes; cruise time should be the sum of segment times.

*Model and proof.* Lists of reals; induction on nodes; the cruise-time sentence is refuted for varying speed.

*Theorems.* `C42_RangeComp`, `C42_additive`, `C42_range_increases`, `C42_breguet_formula`, `C42_constant_speed_time`, `C42_cruise_time_refuted`, `C42_ElectricRangeComp`, `C42_electric_telescopes`, `C42_DistanceComp`, `C42_DistanceComp_refuted`, `C42_SpeedConstraints`

*Note.* Findings: cruise_time divides the whole distance by the mean speed of the last segment, so it is the sum of the segment times only at constant speed and can decrease (C42_cruise_time_refuted); simple_cruise DistanceComp declares the partial of the initial distance for node 0 only (C42_DistanceComp_refuted).

### C43 Geopotential altitude conversion terminates and inverts  —  proved

*Claim.* Geodetic to geopotential conversion is strictly increasing and inverted by its closed form; the fixed-point iteration used on engine decks terminates within its tolerance.

*Model and proof.* Reals; loop as fuelled recursion with a termination bound.

*Theorems.* `C43_geopotential`, `C43_loop`, `C43_convert`, `C43_diverges_refuted`, `C43_negative_refuted`

*Note.* Findings: negative altitudes give a complex number or nan (C43_negative_refuted); above about 2.1e7 ft the loop never ends (C43_diverges_refuted). The caller list is overwritten in place (not modelled).

### C44 The tanh integer blend stays within its unit interval and has the declared derivative  —  proved

*Claim.* smooth_int_tanh(x) lies strictly between floor(x) and floor(x)+1, is strictly increasing for mu > 0 and has derivative d_smooth_int_tanh at every non-integer x; a complex step through it gives slope one instead of the declared derivative.

*Model and proof.* Reals and pairs for complex numbers.

*Theorems.* `C44_bracketed_and_increasing`, `C44_derivative`, `C44_complex_step_refuted`

*Note.* Finding: complex-step differentiation of smooth_int_tanh is wrong because the imaginary part is moved into the floor (L222).

### C45 The vehicle deck reader finds name, values and units in every well-formed line  —  proved

*Claim.* For every line made of comma-separated cells with arbitrary white space, empty cells and an optional comment, parse_inputs finds exactly the non-empty items; name, values and optional units set that variable to the converted values in order with those units or the metadata units; lines are handled in order and lines without data leave no trace.

*Model and proof.* Character-level model; line generator as specification.

*Theorems.* `C45_line_items`, `C45_line_sets_variable`, `C45_file`, `C45_missing_value_refuted`, `C45_text_value_taken_for_units_refuted`, `C45_unknown_names`

*Note.* Findings: a line with a name only, or name and units only, raises IndexError; a text value that is a unit name is taken for the units; unknown names without a colon are dropped silently.

### C46 Declared partials of FLOPS systems and equipment masses are exact  —  proved

*Claim.* For every system and equipment mass component (air conditioning, APU, avionics, electrical, furnishings, hydraulics, instruments, surface controls; standard and alternate) every output is assigned, only declared partials are assigned, and for every output and input the partial that OpenMDAO uses is the derivative of what compute assigns.

*Model and proof.* Component semantics of Comp.v; model text produced by tools/py2coq.py from the Python syntax tree; Coquelicot derivatives.

*Theorems.* `C46_TransportAirCondMass`, `C46_AltAirCondMass`, `C46_TransportAPUMass`, `C46_TransportAvionicsMass`, `C46_ElectricalMass`, `C46_AltElectricalMass`, `C46_TransportHydraulicsGroupMass`, `C46_hydraulics_pressure`, `C46_AltHydraulicsGroupMass`, `C46_TransportInstrumentMass`, `C46_TransportFurnishingsGroupMass`, `C46_BWBFurnishingsGroupMass`, `C46_AltFurnishingsGroupMassBase`, `C46_AltFurnishingsGroupMass`, `C46_SurfaceControlMass`, `C46_AltSurfaceControlMass`

*Note.* The hydraulics partial with respect to system pressure holds a constant with 16 digits: proved within a relative error of 1e-16 (C46_hydraulics_pressure). AntiIcingMass (per-engine arrays) is not in this claim. Domains are stated in each theorem.

### C47 Declared partials of FLOPS payload, crew and operating item masses are exact  —  proved

*Claim.* For every payload, crew, container, passenger service, engine oil, unusable fuel, paint, canard, fin and empty margin component the partial that OpenMDAO uses is the derivative of what compute assigns, for every output and input.

*Model and proof.* As C46.

*Theorems.* `C47_TransportCargoContainersMass`, `C47_CabinCrewMass`, `C47_FlightCrewMass`, `C47_EmptyMassMargin`, `C47_TransportEngineOilMass`, `C47_AltEngineOilMass`, `C47_PaintMass`, `C47_PassengerServiceMass`, `C47_AltPassengerServiceMass`, `C47_TotalPayload`, `C47_CargoMass`, `C47_PaxPayloadMass`, `C47_TransportUnusableFuelMass`, `C47_unusable_outputs_refuted`, `C47_AltUnusableFuelMass`

*Note.* Finding: TransportUnusableFuelMass declares the output MAX_CAPACITY_VOLUME and never assigns it (C47_unusable_outputs_refuted).

### C48 Declared partials of FLOPS airframe masses are exact  —  proved

*Claim.* For every fuselage, tail, fin, canard, landing gear, landing mass and wing component without per-engine arrays the partial that OpenMDAO uses is the derivative of what compute assigns, for every output and input.

*Model and proof.* As C46.

*Theorems.* `C48_CanardMass`, `C48_FinMass`, `C48_TransportFuselageMass`, `C48_AltFuselageMass`, `C48_BWBFuselageMass`, `C48_HorizontalTailMass`, `C48_AltHorizontalTailMass`, `C48_VerticalTailMass`, `C48_AltVerticalTailMass`, `C48_LandingGearTotalMass`, `C48_MainGearMass`, `C48_NoseGearMass`, `C48_AltLandingGearMass`, `C48_LandingTakeoffMassRatio`, `C48_LandingMass`, `C48_WingBendingMass`, `C48_WingShearControlMass`, `C48_WingMiscMass`, `C48_BWBWingMiscMass`, `C48_WingTotalMass`

*Note.* WingBendingMass is proved on the range where its denominators are positive. HorizontalTailMass with a number of tails other than 0 or 1 executes raise of a string, a TypeError; the theorem says nothing about that case. Not covered: BWBAftBodyMass, wing_detailed.py, wing_simple.py.

### C49 Declared partials of FLOPS fuel system, fuel capacity and engine control masses are exact  —  proved

*Claim.* For the fuel system, fuel capacity and engine control components the partial that OpenMDAO uses is the derivative of what compute assigns, for every output and input.

*Model and proof.* As C46.

*Theorems.* `C49_TransportEngineCtrlsMass`, `C49_FuselageFuelCapacity`, `C49_AuxFuelCapacity`, `C49_TotalFuelCapacity`, `C49_WingFuelCapacity`, `C49_TransportFuelSystemMass_except`, `C49_TransportFuelSystemMass`, `C49_TransportFuelSystemMass_refuted`, `C49_AltFuelSystemMass`

*Note.* Finding: the partial of the standard fuel system mass with respect to capacity uses the number of engines instead of the distributed engine count factor, so it is wrong above four engines (C49_TransportFuelSystemMass_refuted).

### C50 Mass scalers scale  —  proved

*Claim.* The mass computed by a component that has a mass scaler is proportional to the scaler: scaler t gives t times the mass at scaler one, for all other inputs.

*Model and proof.* As C46.

*Theorems.* `C50_MassSys`, `C50_MassLoad`, `C50_MassStruct`, `C50_MassProp`

*Note.* All mass scaler inputs of the modelled components.

### C51 Masses of a positive aircraft are positive  —  proved

*Claim.* A FLOPS mass component with positive inputs and positive option numbers gives a positive mass.

*Model and proof.* As C46.

*Theorems.* `C51_MassSys`, `C51_MassLoad`, `C51_MassStruct`, `C51_MassProp`, `C51_MassSum`

*Note.* Components with differences or logarithms are left out.

### C52 Unsteady flight conditions agree with the steady ones and report true rates  —  proved

*Claim.* With the speed given as TAS, EAS or Mach, the unsteady component computes the same speeds and dynamic pressure as the steady one, the rates it reports are the time derivatives of those speeds, and every partial OpenMDAO uses is the true derivative.

*Model and proof.* Coquelicot; refuted for the EAS rate and for the pairs that are not assigned or not declared, which are listed in the theorems.

*Theorems.* `C52_UnsteadyConditions_TAS_flight`, `C52_UnsteadyConditions_TAS_ground`, `C52_UnsteadyConditions_EAS_flight`, `C52_UnsteadyConditions_EAS_ground`, `C52_UnsteadyConditions_MACH_flight`, `C52_UnsteadyConditions_MACH_ground`, `C52_partials_refuted`, `C52_agrees_with_steady`, `C52_mach_rate`, `C52_tas_rate`, `C52_eas_rate_refuted`

*Note.* Findings: the EAS rate formula is not the time derivative (C52_eas_rate_refuted); in EAS mode partials with respect to density and EAS are declared and never assigned, in Mach mode partials with respect to speed of sound and Mach are not declared (C52_partials_refuted). All other pairs are exact.

### C53 Takeoff and landing estimates have exact partials and consistent kinematics  —  proved

*Claim.* For the simplified takeoff and landing and for the landing segments every partial OpenMDAO uses is the true derivative; the maximum lift at the stall speed carries the weight; the descent angle and glide distance agree with sink rate and altitude; the ground roll is positive; takeoff conserves mass.

*Model and proof.* Coquelicot.

*Theorems.* `C53_LandingCalc`, `C53_StallSpeed`, `C53_FinalTakeoffConditions`, `C53_LandingAltitudeComponent`, `C53_GlideConditionComponent`, `C53_approach_speeds`, `C53_glide_geometry`, `C53_ground_roll`, `C53_ground_roll_positive`, `C53_LandingGroundRollComponent`, `C53_approach_margin`, `C53_takeoff_mass`, `C53_stall_lift`

*Note.* The glide theorem needs a sink rate below the glide speed (asin).

### C54 The control point fit solves the least squares problem  —  proved

*Claim.* The residuals of the cubic coefficients of PolynomialFit vanish exactly at the cubics with the least sum of squared errors; control points that lie on a cubic are reproduced.

*Model and proof.* Expansion of the squared error around a cubic.

*Theorems.* `C54_least_squares`, `C54_interpolates`

### C55 The shipped atmosphere tables describe a physical atmosphere  —  proved

*Claim.* All 13 tables have strictly increasing altitudes with one coefficient row more than altitudes and contain altitude zero; at every altitude of the range the temperature is positive and, except on Venus, so are pressure and density; neighbouring cubics meet up to 1e-12; in the standard atmosphere pressure and density fall with altitude and obey the gas law at the table points; the sea level density handed to the mission is the density of the component at altitude zero.

*Model and proof.* The decimals of the data files are turned into exact rationals by tools/atmdata.py; Bernstein coefficients of every cubic are checked by vm_compute and lifted to all reals.

*Theorems.* `C55_well_formed`, `C55_temperature_positive`, `C55_pressure_density_positive`, `C55_no_jumps`, `C55_falling`, `C55_venus_refuted`, `C55_rising_refuted`, `C55_above_refuted`, `C55_sea_level`, `C55_gas_law`

*Note.* Findings: the Venus table gives negative pressure and density inside its range (C55_venus_refuted); in the hot and cold tables the pressure rises with altitude (C55_rising_refuted); 10 km above the standard table pressure and density are negative (C55_above_refuted).

### C56 Declared partials of GASP systems, equipment, crew and landing gear masses are exact  —  proved

*Claim.* For every component of the GASP systems, operating items, furnishings, controls and landing gear masses the partial that OpenMDAO uses is the derivative of what compute assigns, for every output and input, smooth and not smooth. The main gear and the nose gear together are the landing gear; emergency equipment, oxygen system and passenger service never get lighter with more passengers; the cabin crew never gets lighter on either side of 40 passengers.

*Model and proof.* As C46, with the sigmoid and the smooth maximum of utils/math as functions with known derivatives (CompFun.v); thresholds are left out of the domain when not smooth.

*Theorems.* `C56_ACMass`, `C56_BWBACMass`, `C56_AntiIcingMass`, `C56_APUMass`, `C56_AvionicsMass`, `C56_CargoContainerMass`, `C56_MiscControlMass`, `C56_SumControlMass`, `C56_CabinCrewMass`, `C56_FlightCrewMass`, `C56_ElectricalMass`, `C56_EmergencyEquipment`, `C56_EngineOilMass`, `C56_HydraulicsMass`, `C56_InstrumentMass`, `C56_LandingMass`, `C56_LandingGearMass`, `C56_OxygenSystemMass`, `C56_PassengerServiceMass`, `C56_SurfaceControlMass`, `C56_surface_scaler`, `C56_TotalLandingGearMass`, `C56_gear_scaler`, `C56_gear_diameter_refuted`, `C56_passenger_service_refuted`, `C56_FurnishingMass`, `C56_BWBFurnishingMass`, `C56_furnishing_smooth_refuted`, `C56_gear_split`, `C56_emergency_monotone`, `C56_oxygen_monotone`, `C56_service_monotone`, `C56_cabin_crew_refuted`, `C56_cabin_crew_monotone`

*Note.* Findings: the cabin crew mass falls from 39 to 40 passengers (C56_cabin_crew_refuted, crew.py L58-61); the partials of the surface control mass and of the total landing gear mass lack their mass scaler (C56_surface_scaler, C56_gear_scaler: exact iff the scaler is 1 or the partial is 0); one term of the landing gear partial with respect to the nacelle diameter has the wrong sign (C56_gear_diameter_refuted) and the one with respect to the wing location is not declared; the passenger service partial is 0 for 10 to 19 passengers (C56_passenger_service_refuted); smooth furnishings add the mass of both branches (C56_furnishing_smooth_refuted); without smoothing compute raises UnboundLocalError for fewer than 50 passengers and a cabin width from 5.667 to 8.9. Landing gear for one engine type.

### C57 Declared partials of GASP wing, tail, engine and fixed masses are exact  —  proved

*Claim.* For the strut, fold, wing total, tail, payload, engine, pod and electric augmentation components and for the wing mass parameters the partial that OpenMDAO uses is the derivative of what compute assigns, for every output and input.

*Model and proof.* As C56; the chain through the half sweep angle is proved once for any dependence of its tangent on the input.

*Theorems.* `C57_StrutAndFoldMassStrut`, `C57_StrutAndFoldMassFold`, `C57_StrutAndFoldMassBoth`, `C57_StrutAndFoldMassNone`, `C57_WingMassTotal`, `C57_PayloadGroup`, `C57_ElectricAugmentationMass`, `C57_TotalEngineMass`, `C57_EnginePodMass`, `C57_AdditionalEngineMass`, `C57_pylon_scaler`, `C57_MassParameters_sharp`, `C57_MassParameters_smooth`, `C57_gear_location_refuted`, `C57_HorizontalTailMass`, `C57_VerticalTailMass`, `C57_htail_scaler`, `C57_vtail_scaler`

*Note.* Findings: all partials of the two tail masses lack the mass scaler (C57_htail_scaler, C57_vtail_scaler: exact iff the scaler is 1 or the partial is 0), so do two partials of the pylon mass (C57_pylon_scaler); the smooth gear location partial has a factor 100 too much (C57_gear_location_refuted). One engine type. Not covered: HighLiftMass, WingMountEngineMass, WingMassSolve.

### C58 The Hamilton Standard propeller method interpolates its tables and ends with a physical result  —  proved

*Claim.* The interpolation routines reproduce the table at its points, hold the end values outside, reproduce quadratics inside, are continuous with continuous slope and, in two variables, are the product of the one-variable rules; the shipped tables are increasing; the thrust iteration returns a positive thrust coefficient within 0.1 % of its target, zero or an error; at the design lift coefficient there is always a result; thrust times speed is installed efficiency times shaft power.

*Model and proof.* The tables are copied as integers by tools/hamdata.py; lists and Python indices are modelled literally, numbers are reals.

*Theorems.* `C58_unint_node`, `C58_unint_outside`, `C58_unint_inside`, `C58_unint_total`, `C58_unint_quadratic`, `C58_unint_slope`, `C58_unint_short_refuted`, `C58_unint_between_refuted`, `C58_biquad_tensor`, `C58_biquad_node`, `C58_biquad_univariate`, `C58_tables`, `C58_mach_table`, `C58_mach_table_refuted`, `C58_iteration`, `C58_no_blades_refuted`, `C58_hamilton_errors`, `C58_odd_blades`, `C58_no_loss`, `C58_checks_iff`, `C58_checks_refuted`, `C58_power_balance`, `C58_design_lift`, `C58_table_points`

*Note.* Findings: no blades give the result of eight blades because of index -1 (C58_no_blades_refuted), more than eight blades raise IndexError; the checks compare any(...) with 0 and so accept negative tip speed, speed of sound, density and power (C58_checks_refuted); one row of the Mach correction table is not monotone (C58_mach_table_refuted); tables with fewer than four points raise IndexError (C58_unint_short_refuted); the interpolant leaves the range of the neighbouring table values (C58_unint_between_refuted). A division by zero in the iteration is an outcome of its own (nan in numpy). Not modelled: messages, complex step, the declared partials of the first and last component.

### C59 A Fortran deck is read as exactly its assignments and every value is kept  —  proved

*Claim.* A deck of namelists and free lines is read as its assignments in their order with their namelists, whatever the white space, comments, empty lines, trailing commas and number of assignments per line; a name stands for the variables that have a Fortran name ending with it; every assignment gives each of its variables a value among the inputs or unused values and changes no other variable; an input has the values of the last assignment that stands for it; element assignments keep all other elements; scaler variables become factors or fixed values by their size.

*Model and proof.* Induction over a grammar of decks and their layouts; the reader is generic in what it does with an assignment.

*Theorems.* `C59_deck`, `C59_layout`, `C59_one_line_refuted`, `C59_slash_refuted`, `C59_exponent_refuted`, `C59_text_refuted`, `C59_reader_errors`, `C59_names`, `C59_suffix_refuted`, `C59_element`, `C59_whole`, `C59_first_element_refuted`, `C59_index_zero_refuted`, `C59_bool_refuted`, `C59_empty_twice_refuted`, `C59_scaler`, `C59_scaler_refuted`, `C59_kept`, `C59_last_wins`, `C59_units_refuted`, `C59_free_names_refuted`, `C59_guesses_refuted`, `C59_index`, `C59_gear_refuted`

*Note.* Findings: INPROP.GR always raises TypeError (C59_gear_refuted); units written in the deck are ignored for every input (C59_units_refuted), though documented; Aviary names outside of namelists, the documented use, never set an input (C59_free_names_refuted); the branch for initial guesses is never taken (C59_guesses_refuted); a namelist on one line is never closed (C59_one_line_refuted); slashes, blanks and exclamation marks inside of text are lost (C59_slash_refuted, C59_text_refuted); an exponent can become part of the next name (C59_exponent_refuted); the end of a name is enough to match (C59_suffix_refuted); VAR(3) without VAR(1) leaves None in front (C59_first_element_refuted), VAR(0) overwrites the last element (C59_index_zero_refuted); a bool is converted at the first assignment only and wrong numbers pass because the ValueError is not raised (C59_bool_refuted); a scaler of zero, no mass by its documentation, is removed so that the default applies (C59_scaler_refuted). Lists are values: that one list object can be shared by several names is not modelled.

### C60 The partials of the FLOPS based aerodynamics are the derivatives of its outputs  —  proved

*Claim.* Every declared partial of lift, drag, ground effect, induced drag with and without forward sweep, buffet lift, compressibility drag, lift dependent drag, the residuals of the skin friction, each surface of the skin friction drag and the battery equals the derivative of the modelled output with respect to that input, at every node and for every table; the interpolation at the edges of the lift dependent drag is characterised exactly.

*Model and proof.* Tables are arguments with their partial derivatives (smooth_at, smooth3); chain rules for each shape of term, then equality of rational expressions.

*Theorems.* `C60_SimpleLift`, `C60_LiftEqualsWeight`, `C60_SimpleDrag`, `C60_ScaledCD`, `C60_SizeBattery`, `C60_InducedDrag`, `C60_InducedDragRedux`, `C60_InducedDragForward`, `C60_forward_sweep_period_refuted`, `C60_GroundEffect`, `C60_BuffetLift`, `C60_buffet_sweep_refuted`, `C60_CompressSub`, `C60_CompressSuper`, `C60_CompressSuper_below`, `C60_taper_one`, `C60_edge_rates`, `C60_edge_reciprocal`, `C60_edge_jump_refuted`, `C60_inner_rates`, `C60_LiftDependentDrag`, `C60_SkinFriction`, `C60_SkinFrictionTerm`, `C60_SkinFrictionTerm_turbulent`

*Note.* Findings: forward sweep and the sweep of the buffet lift are divided by pi / 180 instead of multiplied, so both have a period of about 0.055 or 0.11 degrees and the buffet lift changes sign at 0.055 degrees (C60_forward_sweep_period_refuted, C60_buffet_sweep_refuted); edge_interp of the lift dependent drag has a fixed factor 2 where the distance of the two table points belongs, so the drag factor jumps by 4, 20 or 10 at three of its four edges (C60_edge_reciprocal, C60_edge_jump_refuted); at Mach 1 and above a taper ratio of exactly 1 counts as one half in the interference drag (C60_taper_one) while compute_partials divides by 1 - taper ratio; without laminar flow the partials for the laminar fractions are those of laminar flow (excepted in C60_SkinFrictionTerm_turbulent), and the partial for Re is not written. TAW, which guess_nonlinear computes from temperature and Mach number, is constant in linearize and in the model. Domains leave out the points where a formula changes. Not modelled: the tables themselves, the loop that selects tables, the guess, SkinFrictionDrag as the sum over surfaces.

### C61 The partials of the GASP based geometry are the derivatives of its outputs, with the exceptions  —  proved

*Claim.* Every declared partial of the fuselage, wing, strut, fold, fuel volume, tail, cable, nacelle and engine sizes of the GASP based geometry, for tube and wing and for blended wing body, equals the derivative of the modelled output with respect to that input (of the fuel volume of a blended wing body: the partials with respect to the gear location only); the exceptions are named and their error is given exactly; the exposed wing share and the exposed nacelle share are joined smoothly at the borders of their cases, including the border points.

*Model and proof.* Components from the translator; a lemma for the rate of the fuel volume formula, a lemma for gluing two curves at a border, then equality of rational expressions.

*Theorems.* `C61_CableSize`, `C61_TailVolCoefH`, `C61_TailVolCoefV`, `C61_TailSizeH`, `C61_TailSizeV`, `C61_GASPEngineLength`, `C61_GASPEngineSurfaceArea`, `C61_FuselageParameters`, `C61_FuselageSize`, `C61_StrutCalcsDim`, `C61_StrutCalcsNonDim`, `C61_FoldCalcsDim`, `C61_FoldCalcsNonDim`, `C61_WingSize`, `C61_WingFoldAreaStrut`, `C61_WingFoldAreaChosen`, `C61_GASPEngineDiameter`, `C61_BWBFuselageParameters1`, `C61_BWBFuselageParameters2`, `C61_BWBFuselageSize`, `C61_StrutGeom`, `C61_WingParameters`, `C61_WingVolume`, `C61_hydraulic_diameter_refuted`, `C61_wetted_area_iff`, `C61_WingFoldVolumeStrut`, `C61_WingFoldVolumeChosen`, `C61_BWBWingFoldVolumeStrut`, `C61_BWBWingFoldVolumeChosen`, `C61_ExposedWingTW`, `C61_ExposedWingBWB`, `C61_PercentNotInFuselage`, `C61_exposed_share_ends`, `C61_BWBWingVolumeNoFold_sharp`, `C61_BWBWingVolumeNoFold_gear`, `C61_BWBWingVolumeFold_sharp`, `C61_BWBWingVolumeFold_gear`

*Note.* Findings: the partial of the hydraulic diameter of a blended wing body with respect to the aisle width uses the cabin width where the mean of cabin and body width belongs (C61_hydraulic_diameter_refuted); the partial of its wetted area with respect to the hydraulic diameter multiplies by one diagonal where it should divide by another, so it is exact only if their product is 1 (C61_wetted_area_iff); with smoothing, the partials of the blended wing body fuel volume with respect to the gear location lack a factor 6 and divide by the width of the smoothing twice (C61_BWBWingVolumeNoFold_gear, C61_BWBWingVolumeFold_gear); without smoothing they are exact. Outside of [0, 1] the wing mount location makes ExposedWing raise a string, which python rejects with a TypeError; the domain excludes it. BWBCabinLayout and the partials of the blended wing body fuel volume with respect to its other inputs are not part of this claim.

### C62 Design loads, fuselage masses and fuel masses of GASP: exact partials and limits, with the exceptions  —  proved

*Claim.* Every declared partial of the transport design speeds, of the lift curve slope, of the load factors where they differ and without smoothing, of the fuselage masses, of the fuel system, of the fuel mass and of the wing fuel equals the derivative of the modelled output, the exceptions being named with the exact condition or error; the wing fuel is the smaller of its volume limit and its take-off limit; the capacity without the unusable fuel is the smaller of the carried fuel and the gross mass without the operating mass; the design fuel is the required fuel exactly if the fuel system mass is consistent with it; the ultimate load factor is 3 / 2 of the greatest of manoeuvre, cruise gust and dive gust load factor; cruise and dive speeds, Mach number and density ratio respect their limits; in the categories 0, 1 and 2 the speeds of a light blended wing body are those of a tube and wing aircraft whose wing loading is the gross mass over the exposed wing area.

*Model and proof.* Components from the translator; equality of rational expressions and powers for the partials, case distinctions for the limits.

*Theorems.* `C62_LoadSpeedsTransport`, `C62_BWBLoadSpeedsTransport`, `C62_speed_limits`, `C62_category_one_refuted`, `C62_load_parameters`, `C62_LiftCurveSlopeAtCruise`, `C62_load_factor_max`, `C62_bwb_load_factor`, `C62_FuselageMass`, `C62_fuselage_scaler`, `C62_BWBFuselageMass`, `C62_bwb_fuselage_scaler`, `C62_FuelSysAndFullFuselageMass`, `C62_FuelMass`, `C62_fuel_balance`, `C62_FuelComponentsSharp`, `C62_wing_fuel_limit`, `C62_FuelComponentsSmooth`, `C62_wing_fuel_gross`, `C62_wing_fuel_gross_refuted`, `C62_capacity_limit`, `C62_auxiliary_refuted`, `C62_LoadFactorsSharp`, `C62_dive_speed_refuted`, `C62_bwb_light_speeds`, `C62_bwb_light_speeds_smooth`

*Note.* Findings: for a light aircraft of category 1 compute_partials overwrites the partial of the cruise speed with respect to the wing loading by 0, though the speed grows with it (C62_category_one_refuted; the source asks "why this block?"); the partial of the fuselage mass with respect to the additional mass lacks the mass scaler, so it is exact exactly if the scaler is 1 (C62_fuselage_scaler), as do six partials of the blended wing body fuselage mass (C62_bwb_fuselage_scaler); with smoothing, the partial of the auxiliary fuel divides the slope of the sigmoid by 50 again (C62_auxiliary_refuted), and the partials of the greatest wing fuel carry the wrong sign in one term, the error being exactly twice that term (C62_wing_fuel_gross, C62_wing_fuel_gross_refuted). With smoothing, the partial of the ultimate load factor with respect to the dive speed is always 0 although it grows with it (C62_dive_speed_refuted gives the derivative where the three factors agree, design_load.py L1090). Modelled but without a theorem on the partials: the other light aircraft speeds, the load parameters, the load factors with smoothing (apart from the dive speed), the blended wing body load factors and the body tank (apart from the auxiliary fuel). For these the values are covered without smoothing; with smoothing the values are not covered either, except that the light blended wing body speeds equal those of the tube and wing class (C62_bwb_light_speeds_smooth). Wrong versions of these definitions survive; see seeded/LOG.jsonl, where the surviving edits carry a note.

### C63 GASP aerodynamics: exact partials, inverse lift relations and stall, with the exceptions  —  proved

*Claim.* Every declared partial of the lift and drag forces, of the form factors, of the wing and fuselage interference, of the lift curve slope of the body and of the lift coefficients (take-off and landing, clean, from the angle of attack and to it, conventional and blended wing body) equals the derivative of the modelled output, the exceptions being named with the exact condition; the angle of attack and the lift coefficient are inverse to each other, as are lift and lift coefficient; at the stall angle the lift coefficient is the maximum lift coefficient, clean and with full flaps; the lift coefficient lies on the line between no flaps and full flaps; the induced drag factor of a blended wing body is at most 0.975.

*Model and proof.* Components from the translator; equality of rational expressions, powers and roots for the partials, field equations for the inverse relations.

*Theorems.* `C63_AeroForces`, `C63_CLFromLift`, `C63_RootChord`, `C63_CommonVariables`, `C63_BodyRatios`, `C63_InterferenceDrag`, `C63_FormFactor`, `C63_BWBFormFactor`, `C63_SIWB`, `C63_BWBSIWB`, `C63_LiftCoeff`, `C63_BWBLiftCoeff`, `C63_LiftCoeffClean`, `C63_LiftCoeffCleanAlpha`, `C63_BWBLiftCoeffClean`, `C63_BWBLiftCoeffCleanAlpha`, `C63_BWBBodyLiftCurveSlope`, `C63_AeroFormfactors`, `C63_angle_inverse`, `C63_bwb_angle_inverse`, `C63_stall`, `C63_stall_flaps`, `C63_flap_line`, `C63_bwb_stall`, `C63_lift_inverse`, `C63_interference_swapped`, `C63_WingFuselageInterferenceMission`, `C63_TopAndBottomWidth`, `C63_UFacTransport`, `C63_lift_ratio_iff`, `C63_bwb_limit`, `C63_bwb_small_span_refuted`, `C63_UFacBWBSharp`, `C63_bwb_capped_iff`, `C63_bwb_smooth_limit`

*Note.* Findings: the partial of the induced drag factor with respect to the lift ratio divides the derivative of the numerator by the span ratio, so it is exact exactly if the span ratio is 1 (C63_lift_ratio_iff, gaspaero.py L625); for a blended wing body compute replaces a small span ratio by 1 but compute_partials does not (C63_bwb_small_span_refuted), and above the limit of 0.975 the partial with respect to the lift ratio is not limited, so it is exact exactly if it is zero anyway (C63_bwb_capped_iff); the unused component WingFuselageInterferenceMission reads its two interference inputs in the wrong order (C63_interference_swapped, interference.py L353-354, L399); with full flaps the reported maximum lift coefficient of a blended wing body is that of the wing, the whole body having another one at the stall angle (C63_bwb_stall). The smooth limit: its bound only. Not modelled: the components with complex step partials (WingTailRatios, Xlifts, AeroGeom, DragCoef, GroundEffect), the ramps, the polar interpolation.
