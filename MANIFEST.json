{
 "claims": [
  {
   "property": "C01",
   "status": "proved",
   "theorems": [
    "C01_get_item_latest_write",
    "C01_iteration_is_the_latest_writes",
    "C01_iteration_order"
   ],
   "note": ""
  },
  {
   "property": "C02",
   "status": "proved",
   "theorems": [
    "C02_single_calls_fail_without_effect",
    "C02_which_calls_raise",
    "C02_update_fails_after_exact_prefix",
    "C02_update_atomic_refuted"
   ],
   "note": "Finding: update() is not atomic (witness C02_update_atomic_refuted)."
  },
  {
   "property": "C03",
   "status": "proved",
   "theorems": [
    "C03_deepcopy_isolates",
    "C03_copy_shares_everything",
    "C03_copy_isolates_refuted"
   ],
   "note": "Finding: copy() shares the mapping, so a change through either handle shows in the other (C03_copy_isolates_refuted)."
  },
  {
   "property": "C04",
   "status": "proved",
   "theorems": [
    "C04_same_units_identity",
    "C04_conversion_preserves_quantity",
    "C04_round_trip",
    "C04_path_independent",
    "C04_shape_preserved",
    "C04_error_iff",
    "C04_int_array_round_trip_refuted",
    "C04_incompatible_always_raises_refuted"
   ],
   "note": "Findings: integer arrays lose fractions on conversion; empty or all-None iterables accept incompatible units."
  },
  {
   "property": "C05",
   "status": "proved",
   "theorems": [
    "C05_store_agrees_with_metadata",
    "C05_rejected_call_stores_nothing",
    "C05_conforming_value_stored_verbatim",
    "C05_untyped_variable_rejected"
   ],
   "note": "A variable whose metadata has types None can never be set. Empty-string units pass the compatibility check."
  },
  {
   "property": "C06",
   "status": "proved",
   "theorems": [
    "C06_check_type_iff",
    "C06_array_leaves_checked_refuted"
   ],
   "note": "Finding: only the first leaf of an array is inspected (C06_array_leaves_checked_refuted)."
  },
  {
   "property": "C07",
   "status": "proved",
   "theorems": [
    "C07_conforming_values_unchanged",
    "C07_scalar_cast_result",
    "C07_scalar_cast_idempotent",
    "C07_float_cast_keeps_number",
    "C07_int_cast",
    "C07_enum_by_value",
    "C07_enum_by_name",
    "C07_enum_unknown_raises",
    "C07_iterable_cast_elementwise",
    "C07_enum_list_elementwise_refuted",
    "C07_bool_list_strict_refuted",
    "C07_numeric_cast_lossless_refuted",
    "C07_iterable_cast_idempotent_refuted"
   ],
   "note": "Findings: lists for enum options collapse to the first member, lists for bool options use truthiness, floats for int options are truncated, (int, float) list casting is not idempotent."
  },
  {
   "property": "C08",
   "status": "proved",
   "theorems": [
    "C08_write_then_read",
    "C08_parenthesised_units_refuted",
    "C08_unitless_with_metadata_refuted"
   ],
   "note": "Hypotheses: names and units are words without white space, commas, semicolons, # or parentheses and are not the words input/output; one name is not a number; number printing round-trips. Findings: units with parentheses (lbm/(ft*s)) are written but raise on reading; a unitless column is read in metadata units; comments with a line break would be read as data (outside the model)."
  },
  {
   "property": "C09",
   "status": "proved",
   "theorems": [
    "C09_columns_aligned",
    "C09_short_row_rejected",
    "C09_header_rejections",
    "C09_late_text_rejected",
    "C09_numbers_before_header_rejected",
    "C09_alias_resolution",
    "C09_alias_absent",
    "C09_blank_cell_alignment_refuted",
    "C09_repeated_name_alignment_refuted"
   ],
   "note": "Findings: a blank cell shifts the rest of the row (L98), a repeated header name misaligns later columns (L184-185, L202-204)."
  },
  {
   "property": "C10",
   "status": "proved",
   "theorems": [
    "C10_accepts_iff_definitions_agree",
    "C10_result_is_union_first_wins",
    "C10_errors",
    "C10_order_independence_refuted"
   ],
   "note": "Findings: the tolerance is relative to the second value only, so acceptance depends on the order of the list (C10_order_independence_refuted); an empty list raises IndexError. Equality of other objects (py_eq) is a parameter assumed reflexive."
  },
  {
   "property": "C11",
   "status": "proved",
   "theorems": [
    "C11_accepts_iff_no_conflict",
    "C11_result_is_union",
    "C11_conflict_rejected",
    "C11_kind_clash_refuted",
    "C11_inputs_unchanged_refuted"
   ],
   "note": "Findings: a name that is a variable in one hierarchy and a class in another is not detected and paths are lost (C11_kind_clash_refuted); deepcopy of a class is the class, so the merge changes the classes it was given, also transitively (C11_inputs_unchanged_refuted, heap model)."
  },
  {
   "property": "C12",
   "status": "proved",
   "theorems": [
    "C12_classification",
    "C12_decimals_read_back",
    "C12_shape",
    "C12_scientific_notation_refuted"
   ],
   "note": "Finding: a number in scientific notation without a point (1e5, 1e-05 as printed by str) stays a string (C12_scientific_notation_refuted). Values are exact rationals; rounding to machine numbers is not modelled."
  },
  {
   "property": "C13",
   "status": "proved",
   "theorems": [
    "C13_accepts_iff_completable",
    "C13_no_total_sets_zero",
    "C13_other_methods_and_idempotence"
   ],
   "note": "Equality of capacities is exact (rational) equality."
  },
  {
   "property": "C14",
   "status": "proved",
   "theorems": [
    "C14_totals_match_classes",
    "C14_values_kept",
    "C14_reports",
    "C14_design_override_reported_refuted",
    "C14_gasp",
    "C14_cargo_within_maximum",
    "C14_cargo_table",
    "C14_sizing_cargo_equal_when_all_given",
    "C14_sizing_cargo_equal_refuted"
   ],
   "note": "Findings: a given design total that is replaced is never reported because design_pax_sum_provided is never set (C14_design_override_reported_refuted); in a sizing mission flown cargo is only made equal to design cargo when all three values were given, so a second pass changes the result of the first (C14_sizing_cargo_equal_refuted); with GASP masses a given economy count is overwritten."
  },
  {
   "property": "C15",
   "status": "proved",
   "theorems": [
    "C15_monotone",
    "C15_ratios",
    "C15_explicit_input",
    "C15_baggage"
   ],
   "note": ""
  },
  {
   "property": "C16",
   "status": "proved",
   "theorems": [
    "C16_counts_consistent_iff",
    "C16_kept_and_idempotent",
    "C16_all_engines",
    "C16_always_consistent_refuted",
    "C16_odd_wing_warning_refuted"
   ],
   "note": "Findings: total 3 with 2 fuselage engines leaves the third engine unmounted (C16_always_consistent_refuted); the odd-wing-count warning looks at the count before distribution (C16_odd_wing_warning_refuted)."
  },
  {
   "property": "C17",
   "status": "proved",
   "theorems": [
    "C17_one_entry_per_engine",
    "C17_stored",
    "C17_multidimensional_own_lists",
    "C17_multidimensional_aircraft_list_refuted",
    "C17_empty_list_refuted",
    "C17_list_default_refuted"
   ],
   "note": "Findings: a list in the aircraft inputs for a list-per-engine variable (wing_locations, additional_mass_fraction) is taken whole by every engine model and grows on every pass (C17_multidimensional_aircraft_list_refuted); an empty list shifts entries; a list default mixed with numbers raises ValueError."
  },
  {
   "property": "C18",
   "status": "proved",
   "theorems": [
    "C18_accepts_iff",
    "C18_mandatory_columns_refuted",
    "C18_thrust_check_inverted",
    "C18_accepted_columns",
    "C18_ignore_negative_thrust_fails"
   ],
   "note": "Findings: the required-variable test is inverted (L532-541: only a deck with none of the mandatory columns is rejected, C18_mandatory_columns_refuted); the thrust comparison is inverted (L471: agreeing decks are rejected, C18_thrust_check_inverted); ignore_negative_thrust=True raises IndexError for every ordinary deck (L544-547, C18_ignore_negative_thrust_fails)."
  },
  {
   "property": "C19",
   "status": "proved",
   "theorems": [
    "C19_pack",
    "C19_sorted_deck_splits",
    "C19_single_altitude_rejected",
    "C19_every_row_kept_refuted",
    "C19_close_mach_numbers_refuted"
   ],
   "note": "Findings: one-row flight conditions swallow a row of the next condition, a last Mach number with more altitudes loses them, a largest last condition raises IndexError (C19_every_row_kept_refuted); sorting is exact but grouping is by tolerance, so Mach numbers closer than 0.01 split a flight condition (C19_close_mach_numbers_refuted). Modelled for INTERPOLATION_SORT mach; np.lexsort itself is not modelled (a sorted deck is the hypothesis)."
  },
  {
   "property": "C20",
   "status": "proved",
   "theorems": [
    "C20_normalize",
    "C20_constant_gives_nan",
    "C20_hybrid",
    "C20_local",
    "C20_local_length_refuted"
   ],
   "note": "Finding: with a one-row flight condition the locally normalised column has a different length from the deck (C20_local_length_refuted). nan is modelled as a missing value."
  },
  {
   "property": "C21",
   "status": "proved",
   "theorems": [
    "C21_consistent",
    "C21_accepts_iff",
    "C21_idempotent",
    "C21_scaled_thrust_kept_refuted"
   ],
   "note": "Finding: a given scaled thrust is changed silently (below DEBUG verbosity) when it differs from scale factor x reference by less than the tolerance (C21_scaled_thrust_kept_refuted). Division by a zero reference is an error in the model (Python float; inf for numpy)."
  },
  {
   "property": "C22",
   "status": "proved",
   "theorems": [
    "C22_accepts_iff_ordered",
    "C22_rejects_with_ValueError",
    "C22_nothing_lost",
    "C22_falsy_flag_refuted"
   ],
   "note": "Finding: any reserve flag other than the object False (0, None, numpy.bool_(False)) makes a reserve phase; phases without user_options are dropped from both lists."
  },
  {
   "property": "C23",
   "status": "proved",
   "theorems": [
    "C23_two_or_more_reserve_phases",
    "C23_no_reserve_phase",
    "C23_both_ends_iff_two",
    "C23_single_reserve_phase_refuted",
    "C23_no_main_phase_IndexError"
   ],
   "note": "Finding: with exactly one reserve phase energy_builder.py L90 overwrites the entry written at L84, so reserve_fuel_burned.mass_initial stays unconnected (C23_single_reserve_phase_refuted)."
  },
  {
   "property": "C24",
   "status": "proved",
   "theorems": [
    "C24_links_iff",
    "C24_analytic_iff",
    "C24_once",
    "C24_scaling",
    "C24_released_iff",
    "C24_succeeds",
    "C24_pinned_not_linked_refuted",
    "C24_pinned_not_linked",
    "C24_always_succeeds_refuted",
    "C24_release_own_option_refuted",
    "C24_consecutive_analytic_refuted",
    "C24_consecutive_analytic"
   ],
   "note": "Findings: a phase whose initial value is pinned at 0.0 is treated as not pinned (C24_pinned_not_linked_refuted); opt2 of the analytic loops is unbound for the first pair or left over from the regular loop (C24_always_succeeds_refuted, C24_release_own_option_refuted); two consecutive Breguet phases are linked initial to initial (C24_consecutive_analytic_refuted)."
  },
  {
   "property": "C25",
   "status": "proved",
   "theorems": [
    "C25_weighted_mean",
    "C25_order",
    "C25_zero_total",
    "C25_accepts_iff",
    "C25_reference",
    "C25_names",
    "C25_no_arguments_refuted",
    "C25_malformed_rejected_refuted",
    "C25_wrong_weight_kind_refuted",
    "C25_malformed_replaced",
    "C25_direction",
    "C25_direction_refuted",
    "C25_default_model_refuted",
    "C25_inputs_distinct_refuted",
    "C25_adv_normalised",
    "C25_adv_direction_refuted",
    "C25_adv_connects",
    "C25_adv_names_refuted",
    "C25_objective",
    "C25_same_direction_refuted"
   ],
   "note": "Findings: an empty argument list gives an empty expression (C25_no_arguments_refuted); malformed arguments are replaced by a default objective instead of being rejected, and a text weight fails with TypeError (C25_malformed_rejected_refuted, C25_malformed_replaced, C25_wrong_weight_kind_refuted); a negative weight total turns the direction round (C25_direction_refuted); the default model name need not exist (C25_default_model_refuted); two different outputs can share one input name (C25_inputs_distinct_refuted); add_composite_objective_adv connects from the expression to the output, the wrong way round, and builds invalid input names (C25_adv_direction_refuted, C25_adv_names_refuted); a mass objective changes direction when it becomes part of a composite (C25_same_direction_refuted)."
  },
  {
   "property": "C26",
   "status": "proved",
   "theorems": [
    "C26_table_iff",
    "C26_load",
    "C26_reduced_iff",
    "C26_ferry_gross",
    "C26_cruise_after",
    "C26_tank_limited",
    "C26_skipped_point_refuted",
    "C26_gasp",
    "C26_gasp_refuted",
    "C26_no_cruise",
    "C26_original_unchanged_refuted",
    "C26_declined_iff",
    "C26_unconverged_declined_refuted",
    "C26_ferry_bound_refuted",
    "C26_seats_refuted",
    "C26_seats",
    "C26_off_design_errors",
    "C26_off_design_inputs"
   ],
   "note": "Findings: fuel_3 is unbound when the aircraft can lift full fuel with full payload (C26_skipped_point_refuted); GASP without a cargo mass raises TypeError (C26_gasp_refuted); the cruise duration bound of the original problem is doubled because the copy is shallow (C26_original_unchanged_refuted); a problem that did not converge is not declined when quiet (C26_unconverged_declined_refuted); the ferry gross-mass bound is the design gross mass (C26_ferry_bound_refuted); rounding of seats loses passengers (C26_seats_refuted). Mission runs are an oracle."
  },
  {
   "property": "C27",
   "status": "proved",
   "theorems": [
    "C27_round_trip",
    "C27_scalars_unchanged",
    "C27_aviary_enums",
    "C27_unknown_dropped",
    "C27_inputs_after",
    "C27_reload_iff",
    "C27_enum_list_refuted",
    "C27_inputs_unchanged_refuted",
    "C27_empty_list_refuted",
    "C27_kind_kept_refuted",
    "C27_design_gross_refuted",
    "C27_reload_refuted",
    "C27_gross_list_refuted",
    "C27_enum_names",
    "C27_legacy_enum_text",
    "C27_later_path_refuted"
   ],
   "note": "Findings: a list of enums reloads as its first member (C27_enum_list_refuted); saving converts lists of the problem in place (C27_inputs_unchanged_refuted); an empty list makes the whole table unsavable (C27_empty_list_refuted); paths come back as text and arrays as lists (C27_kind_kept_refuted); a design gross mass among the inputs is saved as the mission gross mass (C27_design_gross_refuted); a problem naming only the design gross mass cannot be reloaded (C27_reload_refuted); a gross mass given as a list cannot be read (C27_gross_list_refuted); a list with a path behind a text cannot be saved (C27_later_path_refuted). The JSON text itself is not modelled."
  },
  {
   "property": "C28",
   "status": "proved",
   "theorems": [
    "C28_balance_with_reserve",
    "C28_balance_without_reserve",
    "C28_residual_zero_iff_fuel_matches",
    "C28_feasible_fuel_fits",
    "C28_bad_missions_rejected",
    "C28_mass_closes",
    "C28_single_reserve_phase_refuted"
   ],
   "note": "End to end from the mission description and mass timeseries. Uses the standard real-number axioms. Finding: single reserve phase, see C23."
  },
  {
   "property": "C30",
   "status": "proved",
   "theorems": [
    "C30_array_call_and_derivative",
    "C30_monotone",
    "C30_half_at_center_and_reflection",
    "C30_cut_off_error",
    "C30_derivative_at_cut_off_refuted",
    "C30_zero_steepness_rejected",
    "C30_scalar_call_small_steepness",
    "C30_scalar_call_refuted",
    "C30_scalar_derivative_refuted",
    "C30_array_threshold"
   ],
   "note": "Findings: the scalar branch of sigmoidX multiplies by mu in its cut-off test (L49), so large mu gives 0 (C30_scalar_call_refuted); dSigmoidXdx of a scalar raises UnboundLocalError because dtype is unset (C30_scalar_derivative_refuted); dSigmoidXdx with an x0 array raises as soon as one element is cut off (C30_array_threshold). Array arguments only otherwise."
  },
  {
   "property": "C31",
   "status": "proved",
   "theorems": [
    "C31_smooth_max_brackets",
    "C31_smooth_min_brackets",
    "C31_closed_forms",
    "C31_derivatives",
    "C31_derivatives_are_weights"
   ],
   "note": "Real-number semantics: overflow of exp for large mu*x in smooth_min is not modelled."
  },
  {
   "property": "C32",
   "status": "proved",
   "theorems": [
    "C32_fixed_points",
    "C32_monotone_and_periodic",
    "C32_approximates_integer_part",
    "C32_derivatives"
   ],
   "note": ""
  },
  {
   "property": "C33",
   "status": "proved",
   "theorems": [
    "C33_EngineScaling",
    "C33_scales",
    "C33_not_scaled",
    "C33_fuel",
    "C33_mach_one_refuted",
    "C33_shaft_power_relation",
    "C33_SizeEngine",
    "C33_sizing_agrees"
   ],
   "note": "Stated for any subset of the deck variables and any number of nodes. Findings: at Mach one the fuel flow jumps when the subsonic and supersonic factors differ, and no partial with respect to Mach is declared (C33_mach_one_refuted); rotational speed and torque are both scaled, so shaft power is no longer their product (C33_shaft_power_relation)."
  },
  {
   "property": "C34",
   "status": "proved",
   "theorems": [
    "C34_FlightConditions_TAS",
    "C34_FlightConditions_EAS",
    "C34_FlightConditions_MACH",
    "C34_tas_eas_tas",
    "C34_eas_tas_eas",
    "C34_tas_mach_tas",
    "C34_mach_tas_mach",
    "C34_sea_level"
   ],
   "note": "Stated for any number of nodes: a partial is exact on its own node and the output does not depend on other nodes."
  },
  {
   "property": "C35",
   "status": "proved",
   "theorems": [
    "C35_bin",
    "C35_AtmosphereComp",
    "C35_dsos_output",
    "C35_dsos_geopotential",
    "C35_dsos_geometric_refuted",
    "C35_dsos_wrong",
    "C35_gas_law",
    "C35_sound",
    "C35_delta_T_refuted"
   ],
   "note": "Exact for any table at altitudes that are not table points, any number of nodes. Findings: in geodetic mode the partial of dsos_dh is multiplied by the square of dz_dh instead of dz_dh (C35_dsos_geometric_refuted, C35_dsos_wrong); the output dsos_dh is the slope of the speed of sound only where the table of temperature slopes agrees with the temperature table (C35_dsos_output); the Atmosphere group never passes delta_T_Celcius on (C35_delta_T_refuted)."
  },
  {
   "property": "C36",
   "status": "proved",
   "theorems": [
    "C36_conservation",
    "C36_total_undetermined",
    "C36_conservation_override",
    "C36_supplied_total"
   ],
   "note": "Exact partials of the four components are the C49 theorems. Finding: the components form a cycle that returns whatever total it started from (C36_total_undetermined); the total is determined only if the user supplies it. Groups run each component once in order."
  },
  {
   "property": "C37",
   "status": "proved",
   "theorems": [
    "C37_EmpennageMass",
    "C37_PropulsionMass",
    "C37_FlightControls",
    "C37_SystemsEquipmentMass",
    "C37_AltSystemsEquipmentMassBase",
    "C37_AltSystemsEquipmentMass",
    "C37_EmptyMass",
    "C37_AltEmptyMass",
    "C37_OperatingItemsMass",
    "C37_OperatingMass",
    "C37_ZeroFuelMass",
    "C37_UsefulLoadMass",
    "C37_StructureMass",
    "C37_conservation",
    "C37_conservation_alternate"
   ],
   "note": "Conservation holds for any number of engine types. Groups run each component once in order."
  },
  {
   "property": "C38",
   "status": "proved",
   "theorems": [
    "C38_EmpennageMass",
    "C38_StructureMass",
    "C38_PropulsionMass",
    "C38_SystemsEquipmentMass",
    "C38_EmptyMass",
    "C38_OperatingItemsMass",
    "C38_OperatingMass",
    "C38_ZeroFuelMass",
    "C38_UsefulLoadMass",
    "C38_conservation",
    "C38_override"
   ],
   "note": "The nine GASP summation components run once in order, as in C37. C38_override: when the caller supplies some totals, every other total is still the sum of its parts, read from the final values."
  },
  {
   "property": "C39",
   "status": "proved",
   "theorems": [
    "C39_conserves",
    "C39_bounded",
    "C39_ThrottleAllocator",
    "C39_PropulsionSum",
    "C39_sum_of_engines",
    "C39_PropulsionSumPre",
    "C39_thrust_follows_throttle"
   ],
   "note": "Both allocation modes, any number of nodes and engine types; the index arithmetic of np.tile, np.repeat and row-major storage is part of the model."
  },
  {
   "property": "C40",
   "status": "proved",
   "theorems": [
    "C40_GlideSlopeForces",
    "C40_FlareSumForces",
    "C40_GroundSumForces",
    "C40_RangeRate",
    "C40_RequiredThrust",
    "C40_TakeoffStallSpeed",
    "C40_DistanceRates_climbing",
    "C40_DistanceRates_ground",
    "C40_SumForces_climbing",
    "C40_SumForces_ground",
    "C40_Accelerations",
    "C40_VelocityRate",
    "C40_FlightPathAngleRate",
    "C40_ClimbGradientForces",
    "C40_AltitudeRate",
    "C40_SpecificEnergyRate",
    "C40_ground_unassigned",
    "C40_required_thrust_consistent",
    "C40_level_thrust",
    "C40_range_rate_triangle",
    "C40_climb_triangle",
    "C40_newton_frames",
    "C40_glide_slope_balance",
    "C40_stall_lift",
    "C40_ground_friction",
    "C40_newton_second"
   ],
   "note": "In ground mode DistanceRates and SumForces declare an output that compute never assigns (C40_ground_unassigned). range_rate raises AnalysisError when the climb rate reaches the speed; the theorem is about the other case."
  },
  {
   "property": "C41",
   "status": "proved",
   "theorems": [
    "C41_GammaComp",
    "C41_GroundrollEOM",
    "C41_UnsteadySolvedEOM_flight",
    "C41_UnsteadySolvedEOM_ground",
    "C41_FlightPathEOM_flight",
    "C41_FlightPathEOM_ground",
    "C41_TakeoffEOM_flight",
    "C41_TakeoffEOM_ground",
    "C41_AccelerationRates",
    "C41_EOMRates",
    "C41_TaxiFuelComponent",
    "C41_VRotateComp",
    "C41_FlightConstraints",
    "C41_ClimbAtTopOfClimb",
    "C41_triangles",
    "C41_climb_angle",
    "C41_steady_climb",
    "C41_normal_force",
    "C41_unsteady_agrees",
    "C41_track_angle",
    "C41_taxi_conserves",
    "C41_minimum_speed",
    "C41_rotation_speed"
   ],
   "note": "Stated for any number of nodes. Components with clipped normal force are proved away from the clipping point."
  },
  {
   "property": "C42",
   "status": "proved",
   "theorems": [
    "C42_RangeComp",
    "C42_additive",
    "C42_range_increases",
    "C42_breguet_formula",
    "C42_constant_speed_time",
    "C42_cruise_time_refuted",
    "C42_ElectricRangeComp",
    "C42_electric_telescopes",
    "C42_DistanceComp",
    "C42_DistanceComp_refuted",
    "C42_SpeedConstraints"
   ],
   "note": "Findings: cruise_time divides the whole distance by the mean speed of the last segment, so it is the sum of the segment times only at constant speed and can decrease (C42_cruise_time_refuted); simple_cruise DistanceComp declares the partial of the initial distance for node 0 only (C42_DistanceComp_refuted)."
  },
  {
   "property": "C43",
   "status": "proved",
   "theorems": [
    "C43_geopotential",
    "C43_loop",
    "C43_convert",
    "C43_diverges_refuted",
    "C43_negative_refuted"
   ],
   "note": "Findings: negative altitudes give a complex number or nan (C43_negative_refuted); above about 2.1e7 ft the loop never ends (C43_diverges_refuted). The caller list is overwritten in place (not modelled)."
  },
  {
   "property": "C44",
   "status": "proved",
   "theorems": [
    "C44_bracketed_and_increasing",
    "C44_derivative",
    "C44_complex_step_refuted"
   ],
   "note": "Finding: complex-step differentiation of smooth_int_tanh is wrong because the imaginary part is moved into the floor (L222)."
  },
  {
   "property": "C45",
   "status": "proved",
   "theorems": [
    "C45_line_items",
    "C45_line_sets_variable",
    "C45_file",
    "C45_missing_value_refuted",
    "C45_text_value_taken_for_units_refuted",
    "C45_unknown_names"
   ],
   "note": "Findings: a line with a name only, or name and units only, raises IndexError; a text value that is a unit name is taken for the units; unknown names without a colon are dropped silently."
  },
  {
   "property": "C46",
   "status": "proved",
   "theorems": [
    "C46_TransportAirCondMass",
    "C46_AltAirCondMass",
    "C46_TransportAPUMass",
    "C46_TransportAvionicsMass",
    "C46_ElectricalMass",
    "C46_AltElectricalMass",
    "C46_TransportHydraulicsGroupMass",
    "C46_hydraulics_pressure",
    "C46_AltHydraulicsGroupMass",
    "C46_TransportInstrumentMass",
    "C46_TransportFurnishingsGroupMass",
    "C46_BWBFurnishingsGroupMass",
    "C46_AltFurnishingsGroupMassBase",
    "C46_AltFurnishingsGroupMass",
    "C46_SurfaceControlMass",
    "C46_AltSurfaceControlMass"
   ],
   "note": "The hydraulics partial with respect to system pressure holds a constant with 16 digits: proved within a relative error of 1e-16 (C46_hydraulics_pressure). AntiIcingMass (per-engine arrays) is not in this claim. Domains are stated in each theorem."
  },
  {
   "property": "C47",
   "status": "proved",
   "theorems": [
    "C47_TransportCargoContainersMass",
    "C47_CabinCrewMass",
    "C47_FlightCrewMass",
    "C47_EmptyMassMargin",
    "C47_TransportEngineOilMass",
    "C47_AltEngineOilMass",
    "C47_PaintMass",
    "C47_PassengerServiceMass",
    "C47_AltPassengerServiceMass",
    "C47_TotalPayload",
    "C47_CargoMass",
    "C47_PaxPayloadMass",
    "C47_TransportUnusableFuelMass",
    "C47_unusable_outputs_refuted",
    "C47_AltUnusableFuelMass"
   ],
   "note": "Finding: TransportUnusableFuelMass declares the output MAX_CAPACITY_VOLUME and never assigns it (C47_unusable_outputs_refuted)."
  },
  {
   "property": "C48",
   "status": "proved",
   "theorems": [
    "C48_CanardMass",
    "C48_FinMass",
    "C48_TransportFuselageMass",
    "C48_AltFuselageMass",
    "C48_BWBFuselageMass",
    "C48_HorizontalTailMass",
    "C48_AltHorizontalTailMass",
    "C48_VerticalTailMass",
    "C48_AltVerticalTailMass",
    "C48_LandingGearTotalMass",
    "C48_MainGearMass",
    "C48_NoseGearMass",
    "C48_AltLandingGearMass",
    "C48_LandingTakeoffMassRatio",
    "C48_LandingMass",
    "C48_WingBendingMass",
    "C48_WingShearControlMass",
    "C48_WingMiscMass",
    "C48_BWBWingMiscMass",
    "C48_WingTotalMass"
   ],
   "note": "WingBendingMass is proved on the range where its denominators are positive. HorizontalTailMass with a number of tails other than 0 or 1 executes raise of a string, a TypeError; the theorem says nothing about that case. Not covered: BWBAftBodyMass, wing_detailed.py, wing_simple.py."
  },
  {
   "property": "C49",
   "status": "proved",
   "theorems": [
    "C49_TransportEngineCtrlsMass",
    "C49_FuselageFuelCapacity",
    "C49_AuxFuelCapacity",
    "C49_TotalFuelCapacity",
    "C49_WingFuelCapacity",
    "C49_TransportFuelSystemMass_except",
    "C49_TransportFuelSystemMass",
    "C49_TransportFuelSystemMass_refuted",
    "C49_AltFuelSystemMass"
   ],
   "note": "Finding: the partial of the standard fuel system mass with respect to capacity uses the number of engines instead of the distributed engine count factor, so it is wrong above four engines (C49_TransportFuelSystemMass_refuted)."
  },
  {
   "property": "C50",
   "status": "proved",
   "theorems": [
    "C50_MassSys",
    "C50_MassLoad",
    "C50_MassStruct",
    "C50_MassProp"
   ],
   "note": "All mass scaler inputs of the modelled components."
  },
  {
   "property": "C51",
   "status": "proved",
   "theorems": [
    "C51_MassSys",
    "C51_MassLoad",
    "C51_MassStruct",
    "C51_MassProp",
    "C51_MassSum"
   ],
   "note": "Components with differences or logarithms are left out."
  },
  {
   "property": "C52",
   "status": "proved",
   "theorems": [
    "C52_UnsteadyConditions_TAS_flight",
    "C52_UnsteadyConditions_TAS_ground",
    "C52_UnsteadyConditions_EAS_flight",
    "C52_UnsteadyConditions_EAS_ground",
    "C52_UnsteadyConditions_MACH_flight",
    "C52_UnsteadyConditions_MACH_ground",
    "C52_partials_refuted",
    "C52_agrees_with_steady",
    "C52_mach_rate",
    "C52_tas_rate",
    "C52_eas_rate_refuted"
   ],
   "note": "Findings: the EAS rate formula is not the time derivative (C52_eas_rate_refuted); in EAS mode partials with respect to density and EAS are declared and never assigned, in Mach mode partials with respect to speed of sound and Mach are not declared (C52_partials_refuted). All other pairs are exact."
  },
  {
   "property": "C53",
   "status": "proved",
   "theorems": [
    "C53_LandingCalc",
    "C53_StallSpeed",
    "C53_FinalTakeoffConditions",
    "C53_LandingAltitudeComponent",
    "C53_GlideConditionComponent",
    "C53_approach_speeds",
    "C53_glide_geometry",
    "C53_ground_roll",
    "C53_ground_roll_positive",
    "C53_LandingGroundRollComponent",
    "C53_approach_margin",
    "C53_takeoff_mass",
    "C53_stall_lift"
   ],
   "note": "The glide theorem needs a sink rate below the glide speed (asin)."
  },
  {
   "property": "C54",
   "status": "proved",
   "theorems": [
    "C54_least_squares",
    "C54_interpolates"
   ],
   "note": ""
  },
  {
   "property": "C55",
   "status": "proved",
   "theorems": [
    "C55_well_formed",
    "C55_temperature_positive",
    "C55_pressure_density_positive",
    "C55_no_jumps",
    "C55_falling",
    "C55_venus_refuted",
    "C55_rising_refuted",
    "C55_above_refuted",
    "C55_sea_level",
    "C55_gas_law"
   ],
   "note": "Findings: the Venus table gives negative pressure and density inside its range (C55_venus_refuted); in the hot and cold tables the pressure rises with altitude (C55_rising_refuted); 10 km above the standard table pressure and density are negative (C55_above_refuted)."
  },
  {
   "property": "C56",
   "status": "proved",
   "theorems": [
    "C56_ACMass",
    "C56_BWBACMass",
    "C56_AntiIcingMass",
    "C56_APUMass",
    "C56_AvionicsMass",
    "C56_CargoContainerMass",
    "C56_MiscControlMass",
    "C56_SumControlMass",
    "C56_CabinCrewMass",
    "C56_FlightCrewMass",
    "C56_ElectricalMass",
    "C56_EmergencyEquipment",
    "C56_EngineOilMass",
    "C56_HydraulicsMass",
    "C56_InstrumentMass",
    "C56_LandingMass",
    "C56_LandingGearMass",
    "C56_OxygenSystemMass",
    "C56_PassengerServiceMass",
    "C56_SurfaceControlMass",
    "C56_surface_scaler",
    "C56_TotalLandingGearMass",
    "C56_gear_scaler",
    "C56_gear_diameter_refuted",
    "C56_passenger_service_refuted",
    "C56_FurnishingMass",
    "C56_BWBFurnishingMass",
    "C56_furnishing_smooth_refuted",
    "C56_gear_split",
    "C56_emergency_monotone",
    "C56_oxygen_monotone",
    "C56_service_monotone",
    "C56_cabin_crew_refuted",
    "C56_cabin_crew_monotone"
   ],
   "note": "Findings: the cabin crew mass falls from 39 to 40 passengers (C56_cabin_crew_refuted, crew.py L58-61); the partials of the surface control mass and of the total landing gear mass lack their mass scaler (C56_surface_scaler, C56_gear_scaler: exact iff the scaler is 1 or the partial is 0); one term of the landing gear partial with respect to the nacelle diameter has the wrong sign (C56_gear_diameter_refuted) and the one with respect to the wing location is not declared; the passenger service partial is 0 for 10 to 19 passengers (C56_passenger_service_refuted); smooth furnishings add the mass of both branches (C56_furnishing_smooth_refuted); without smoothing compute raises UnboundLocalError for fewer than 50 passengers and a cabin width from 5.667 to 8.9. Landing gear for one engine type."
  },
  {
   "property": "C57",
   "status": "proved",
   "theorems": [
    "C57_StrutAndFoldMassStrut",
    "C57_StrutAndFoldMassFold",
    "C57_StrutAndFoldMassBoth",
    "C57_StrutAndFoldMassNone",
    "C57_WingMassTotal",
    "C57_PayloadGroup",
    "C57_ElectricAugmentationMass",
    "C57_TotalEngineMass",
    "C57_EnginePodMass",
    "C57_AdditionalEngineMass",
    "C57_pylon_scaler",
    "C57_MassParameters_sharp",
    "C57_MassParameters_smooth",
    "C57_gear_location_refuted",
    "C57_HorizontalTailMass",
    "C57_VerticalTailMass",
    "C57_htail_scaler",
    "C57_vtail_scaler"
   ],
   "note": "Findings: all partials of the two tail masses lack the mass scaler (C57_htail_scaler, C57_vtail_scaler: exact iff the scaler is 1 or the partial is 0), so do two partials of the pylon mass (C57_pylon_scaler); the smooth gear location partial has a factor 100 too much (C57_gear_location_refuted). One engine type. Not covered: HighLiftMass, WingMountEngineMass, WingMassSolve."
  },
  {
   "property": "C58",
   "status": "proved",
   "theorems": [
    "C58_unint_node",
    "C58_unint_outside",
    "C58_unint_inside",
    "C58_unint_total",
    "C58_unint_quadratic",
    "C58_unint_slope",
    "C58_unint_short_refuted",
    "C58_unint_between_refuted",
    "C58_biquad_tensor",
    "C58_biquad_node",
    "C58_biquad_univariate",
    "C58_tables",
    "C58_mach_table",
    "C58_mach_table_refuted",
    "C58_iteration",
    "C58_no_blades_refuted",
    "C58_hamilton_errors",
    "C58_odd_blades",
    "C58_no_loss",
    "C58_checks_iff",
    "C58_checks_refuted",
    "C58_power_balance",
    "C58_design_lift",
    "C58_table_points"
   ],
   "note": "Findings: no blades give the result of eight blades because of index -1 (C58_no_blades_refuted), more than eight blades raise IndexError; the checks compare any(...) with 0 and so accept negative tip speed, speed of sound, density and power (C58_checks_refuted); one row of the Mach correction table is not monotone (C58_mach_table_refuted); tables with fewer than four points raise IndexError (C58_unint_short_refuted); the interpolant leaves the range of the neighbouring table values (C58_unint_between_refuted). A division by zero in the iteration is an outcome of its own (nan in numpy). Not modelled: messages, complex step, the declared partials of the first and last component."
  },
  {
   "property": "C59",
   "status": "proved",
   "theorems": [
    "C59_deck",
    "C59_layout",
    "C59_one_line_refuted",
    "C59_slash_refuted",
    "C59_exponent_refuted",
    "C59_text_refuted",
    "C59_reader_errors",
    "C59_names",
    "C59_suffix_refuted",
    "C59_element",
    "C59_whole",
    "C59_first_element_refuted",
    "C59_index_zero_refuted",
    "C59_bool_refuted",
    "C59_empty_twice_refuted",
    "C59_scaler",
    "C59_scaler_refuted",
    "C59_kept",
    "C59_last_wins",
    "C59_units_refuted",
    "C59_free_names_refuted",
    "C59_guesses_refuted",
    "C59_index",
    "C59_gear_refuted"
   ],
   "note": "Findings: INPROP.GR always raises TypeError (C59_gear_refuted); units written in the deck are ignored for every input (C59_units_refuted), though documented; Aviary names outside of namelists, the documented use, never set an input (C59_free_names_refuted); the branch for initial guesses is never taken (C59_guesses_refuted); a namelist on one line is never closed (C59_one_line_refuted); slashes, blanks and exclamation marks inside of text are lost (C59_slash_refuted, C59_text_refuted); an exponent can become part of the next name (C59_exponent_refuted); the end of a name is enough to match (C59_suffix_refuted); VAR(3) without VAR(1) leaves None in front (C59_first_element_refuted), VAR(0) overwrites the last element (C59_index_zero_refuted); a bool is converted at the first assignment only and wrong numbers pass because the ValueError is not raised (C59_bool_refuted); a scaler of zero, no mass by its documentation, is removed so that the default applies (C59_scaler_refuted). Lists are values: that one list object can be shared by several names is not modelled."
  },
  {
   "property": "C60",
   "status": "proved",
   "theorems": [
    "C60_SimpleLift",
    "C60_LiftEqualsWeight",
    "C60_SimpleDrag",
    "C60_ScaledCD",
    "C60_SizeBattery",
    "C60_InducedDrag",
    "C60_InducedDragRedux",
    "C60_InducedDragForward",
    "C60_forward_sweep_period_refuted",
    "C60_GroundEffect",
    "C60_BuffetLift",
    "C60_buffet_sweep_refuted",
    "C60_CompressSub",
    "C60_CompressSuper",
    "C60_CompressSuper_below",
    "C60_taper_one",
    "C60_edge_rates",
    "C60_edge_reciprocal",
    "C60_edge_jump_refuted",
    "C60_inner_rates",
    "C60_LiftDependentDrag",
    "C60_SkinFriction",
    "C60_SkinFrictionTerm",
    "C60_SkinFrictionTerm_turbulent"
   ],
   "note": "Findings: forward sweep and the sweep of the buffet lift are divided by pi / 180 instead of multiplied, so both have a period of about 0.055 or 0.11 degrees and the buffet lift changes sign at 0.055 degrees (C60_forward_sweep_period_refuted, C60_buffet_sweep_refuted); edge_interp of the lift dependent drag has a fixed factor 2 where the distance of the two table points belongs, so the drag factor jumps by 4, 20 or 10 at three of its four edges (C60_edge_reciprocal, C60_edge_jump_refuted); at Mach 1 and above a taper ratio of exactly 1 counts as one half in the interference drag (C60_taper_one) while compute_partials divides by 1 - taper ratio; without laminar flow the partials for the laminar fractions are those of laminar flow (excepted in C60_SkinFrictionTerm_turbulent), and the partial for Re is not written. TAW, which guess_nonlinear computes from temperature and Mach number, is constant in linearize and in the model. Domains leave out the points where a formula changes. Not modelled: the tables themselves, the loop that selects tables, the guess, SkinFrictionDrag as the sum over surfaces."
  },
  {
   "property": "C61",
   "status": "proved",
   "theorems": [
    "C61_CableSize",
    "C61_TailVolCoefH",
    "C61_TailVolCoefV",
    "C61_TailSizeH",
    "C61_TailSizeV",
    "C61_GASPEngineLength",
    "C61_GASPEngineSurfaceArea",
    "C61_FuselageParameters",
    "C61_FuselageSize",
    "C61_StrutCalcsDim",
    "C61_StrutCalcsNonDim",
    "C61_FoldCalcsDim",
    "C61_FoldCalcsNonDim",
    "C61_WingSize",
    "C61_WingFoldAreaStrut",
    "C61_WingFoldAreaChosen",
    "C61_GASPEngineDiameter",
    "C61_BWBFuselageParameters1",
    "C61_BWBFuselageParameters2",
    "C61_BWBFuselageSize",
    "C61_StrutGeom",
    "C61_WingParameters",
    "C61_WingVolume",
    "C61_hydraulic_diameter_refuted",
    "C61_wetted_area_iff",
    "C61_WingFoldVolumeStrut",
    "C61_WingFoldVolumeChosen",
    "C61_BWBWingFoldVolumeStrut",
    "C61_BWBWingFoldVolumeChosen",
    "C61_ExposedWingTW",
    "C61_ExposedWingBWB",
    "C61_PercentNotInFuselage",
    "C61_exposed_share_ends",
    "C61_BWBWingVolumeNoFold_sharp",
    "C61_BWBWingVolumeNoFold_gear",
    "C61_BWBWingVolumeFold_sharp",
    "C61_BWBWingVolumeFold_gear"
   ],
   "note": "Findings: the partial of the hydraulic diameter of a blended wing body with respect to the aisle width uses the cabin width where the mean of cabin and body width belongs (C61_hydraulic_diameter_refuted); the partial of its wetted area with respect to the hydraulic diameter multiplies by one diagonal where it should divide by another, so it is exact only if their product is 1 (C61_wetted_area_iff); with smoothing, the partials of the blended wing body fuel volume with respect to the gear location lack a factor 6 and divide by the width of the smoothing twice (C61_BWBWingVolumeNoFold_gear, C61_BWBWingVolumeFold_gear); without smoothing they are exact. Outside of [0, 1] the wing mount location makes ExposedWing raise a string, which python rejects with a TypeError; the domain excludes it. BWBCabinLayout and the partials of the blended wing body fuel volume with respect to its other inputs are not part of this claim."
  },
  {
   "property": "C62",
   "status": "proved",
   "theorems": [
    "C62_LoadSpeedsTransport",
    "C62_BWBLoadSpeedsTransport",
    "C62_speed_limits",
    "C62_category_one_refuted",
    "C62_load_parameters",
    "C62_LiftCurveSlopeAtCruise",
    "C62_load_factor_max",
    "C62_bwb_load_factor",
    "C62_FuselageMass",
    "C62_fuselage_scaler",
    "C62_BWBFuselageMass",
    "C62_bwb_fuselage_scaler",
    "C62_FuelSysAndFullFuselageMass",
    "C62_FuelMass",
    "C62_fuel_balance",
    "C62_FuelComponentsSharp",
    "C62_wing_fuel_limit",
    "C62_FuelComponentsSmooth",
    "C62_wing_fuel_gross",
    "C62_wing_fuel_gross_refuted",
    "C62_capacity_limit",
    "C62_auxiliary_refuted",
    "C62_LoadFactorsSharp",
    "C62_dive_speed_refuted",
    "C62_bwb_light_speeds",
    "C62_bwb_light_speeds_smooth"
   ],
   "note": "Findings: for a light aircraft of category 1 compute_partials overwrites the partial of the cruise speed with respect to the wing loading by 0, though the speed grows with it (C62_category_one_refuted; the source asks \"why this block?\"); the partial of the fuselage mass with respect to the additional mass lacks the mass scaler, so it is exact exactly if the scaler is 1 (C62_fuselage_scaler), as do six partials of the blended wing body fuselage mass (C62_bwb_fuselage_scaler); with smoothing, the partial of the auxiliary fuel divides the slope of the sigmoid by 50 again (C62_auxiliary_refuted), and the partials of the greatest wing fuel carry the wrong sign in one term, the error being exactly twice that term (C62_wing_fuel_gross, C62_wing_fuel_gross_refuted). With smoothing, the partial of the ultimate load factor with respect to the dive speed is always 0 although it grows with it (C62_dive_speed_refuted gives the derivative where the three factors agree, design_load.py L1090). Modelled but without a theorem on the partials: the other light aircraft speeds, the load parameters, the load factors with smoothing (apart from the dive speed), the blended wing body load factors and the body tank (apart from the auxiliary fuel). For these the values are covered without smoothing; with smoothing the values are not covered either, except that the light blended wing body speeds equal those of the tube and wing class (C62_bwb_light_speeds_smooth). Wrong versions of these definitions survive; see seeded/LOG.jsonl, where the surviving edits carry a note."
  },
  {
   "property": "C63",
   "status": "proved",
   "theorems": [
    "C63_AeroForces",
    "C63_CLFromLift",
    "C63_RootChord",
    "C63_CommonVariables",
    "C63_BodyRatios",
    "C63_InterferenceDrag",
    "C63_FormFactor",
    "C63_BWBFormFactor",
    "C63_SIWB",
    "C63_BWBSIWB",
    "C63_LiftCoeff",
    "C63_BWBLiftCoeff",
    "C63_LiftCoeffClean",
    "C63_LiftCoeffCleanAlpha",
    "C63_BWBLiftCoeffClean",
    "C63_BWBLiftCoeffCleanAlpha",
    "C63_BWBBodyLiftCurveSlope",
    "C63_AeroFormfactors",
    "C63_angle_inverse",
    "C63_bwb_angle_inverse",
    "C63_stall",
    "C63_stall_flaps",
    "C63_flap_line",
    "C63_bwb_stall",
    "C63_lift_inverse",
    "C63_interference_swapped",
    "C63_WingFuselageInterferenceMission",
    "C63_TopAndBottomWidth",
    "C63_UFacTransport",
    "C63_lift_ratio_iff",
    "C63_bwb_limit",
    "C63_bwb_small_span_refuted",
    "C63_UFacBWBSharp",
    "C63_bwb_capped_iff",
    "C63_bwb_smooth_limit"
   ],
   "note": "Findings: the partial of the induced drag factor with respect to the lift ratio divides the derivative of the numerator by the span ratio, so it is exact exactly if the span ratio is 1 (C63_lift_ratio_iff, gaspaero.py L625); for a blended wing body compute replaces a small span ratio by 1 but compute_partials does not (C63_bwb_small_span_refuted), and above the limit of 0.975 the partial with respect to the lift ratio is not limited, so it is exact exactly if it is zero anyway (C63_bwb_capped_iff); the unused component WingFuselageInterferenceMission reads its two interference inputs in the wrong order (C63_interference_swapped, interference.py L353-354, L399); with full flaps the reported maximum lift coefficient of a blended wing body is that of the wing, the whole body having another one at the stall angle (C63_bwb_stall). The smooth limit: its bound only. Not modelled: the components with complex step partials (WingTailRatios, Xlifts, AeroGeom, DragCoef, GroundEffect), the ramps, the polar interpolation."
  }
 ]
}
