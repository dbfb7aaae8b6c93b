{
 "claims": [
  {
   "property": "C01",
   "status": "proved",
   "theorems": [
    "c01_extracted_shapes"
   ],
   "note": "Any element type and unit registry; raw names assumed distinct."
  },
  {
   "property": "C02",
   "status": "proved",
   "theorems": [
    "c02_extracted_values"
   ],
   "note": "Any element type and unit registry; raw names assumed distinct."
  },
  {
   "property": "C03",
   "status": "proved",
   "theorems": [
    "c03_rejected_iff_inconsistent",
    "c03_repeated_dim_refuted"
   ],
   "note": "Proved as an equivalence when no dims list repeats a name after '*' is replaced; without that the code raises ValueError (refuted theorem)."
  },
  {
   "property": "C04",
   "status": "proved",
   "theorems": [
    "c04_restored_outputs",
    "c04_right_shapes_accepted"
   ],
   "note": "Values for '*' outputs when the raw array has the right shape; acceptance of right shapes proved as well."
  },
  {
   "property": "C05",
   "status": "proved",
   "theorems": [
    "c05_round_trip",
    "c05_restore_extract"
   ],
   "note": ""
  },
  {
   "property": "C06",
   "status": "partial",
   "theorems": [
    "c06_wrong_shapes_rejected_partial",
    "c06_wildcard_shape_refuted",
    "c06_shape_ignored",
    "c06_row_major"
   ],
   "note": "Proved for outputs without '*'. For outputs with '*' the code violates the property: refuted with a witness. Also proved what happens instead: the shape of the raw array is ignored, only its elements in row-major order count."
  },
  {
   "property": "C07",
   "status": "partial",
   "theorems": [
    "c07_initialised_shapes",
    "c07_initialised_arrays_restorable_partial",
    "c07_alias_refuted",
    "c07_alias_fails"
   ],
   "note": "Shapes and zeros proved in general; restorability proved without output aliases and refuted with one. Also proved: whenever an output has such an alias there is an exception."
  },
  {
   "property": "C08",
   "status": "proved",
   "theorems": [
    "c08_unit_conversion"
   ],
   "note": "Exact rational arithmetic and a registry in which equal amounts of 1 unit mean equal units."
  },
  {
   "property": "C09",
   "status": "proved",
   "theorems": [
    "c09_tendency_checked",
    "c09_diagnostic_checked",
    "c09_stepper_checked",
    "c09_tendency_tracers_answered",
    "c09_stepper_tracers_answered",
    "c09_output_check_iff",
    "c09_calls_answered"
   ],
   "note": "Checker proved as an equivalence. For calls, which error is raised and that array_call was called once, for all component classes without tracers (c09_*_checked); with tracers, what a call that returns was given (c09_*_tracers_answered)."
  },
  {
   "property": "C10",
   "status": "partial",
   "theorems": [
    "c10_accepted_found_partial",
    "c10_accepted_restorable_refuted",
    "c10_accepted"
   ],
   "note": "Proved when no output has an alias; refuted with an alias and the full name used. Also proved: whenever an output is answered under another key there is an exception."
  },
  {
   "property": "C11",
   "status": "partial",
   "theorems": [
    "c11_tendency_contract",
    "c11_diagnostic_contract",
    "c11_stepper_contract",
    "c11_calls_carry",
    "c11_tendency_tracers",
    "c11_stepper_tracers",
    "c11_tracer_diagnostics_refuted"
   ],
   "note": "Any array_call, element type and registry; each dims list has at most one '*'. With tracers: what array_call is given, exactly which tendencies or outputs are returned, and their values. Violated for the diagnostics of components with tracers and tendencies_in_diagnostics: tracer tendencies are returned without being declared."
  },
  {
   "property": "C12",
   "status": "proved",
   "theorems": [
    "c12_only_declared_inputs"
   ],
   "note": "Results and exceptions are equal, tracers included."
  },
  {
   "property": "C13",
   "status": "proved",
   "theorems": [
    "c13_unusable_not_called",
    "c13_called_on_validated"
   ],
   "note": "Missing, unconvertible, badly shaped inputs; array_call as an arbitrary state machine and as a recorder."
  },
  {
   "property": "C14",
   "status": "proved",
   "theorems": [
    "c14_tendencies_in_diagnostics"
   ],
   "note": "Holds when no declared diagnostic already has an inserted name."
  },
  {
   "property": "C15",
   "status": "partial",
   "theorems": [
    "c15_stepper_difference_partial",
    "c15_aliased_output_refuted",
    "c15_time_unit_label_refuted",
    "c15_needs_names"
   ],
   "note": "Formula proved for unaliased outputs; refuted for aliased outputs (KeyError) and for the label when the time unit is not a second. Also proved: aliased outputs never work."
  },
  {
   "property": "C16",
   "status": "proved",
   "theorems": [
    "c16_tendency_construction",
    "c16_diagnostic_construction",
    "c16_stepper_construction",
    "c16_tendency_with_tracers",
    "c16_stepper_with_tracers"
   ],
   "note": "Unit strings of shared quantities must be known to the registry. Any tracer options (c16_*_with_tracers): what is refused, with which error, and that a refused construction leaves the tracer registry as it was."
  },
  {
   "property": "C17",
   "status": "partial",
   "theorems": [
    "c17_tendency_class",
    "c17_stepper_class",
    "c17_stepper_twin_partial",
    "c17_failed_construction_refuted",
    "c17_tendency_unaffected_partial",
    "c17_stepper_unaffected_partial",
    "c17_second_instance_refuted",
    "c17_later_instance_refuted"
   ],
   "note": "Proved for creations without the option, of other classes or of twins. All that any creations do to a class, whether they return or raise, is proved (c17_tendency_class, c17_stepper_class). Refuted in general with three witnesses, one of them a construction that raises."
  },
  {
   "property": "C18",
   "status": "proved",
   "theorems": [
    "c18_composite_sum",
    "c18_composite_returns",
    "c18_physical_sum",
    "c18_implicit_composite_sum"
   ],
   "note": "Any components (arbitrary state machines), any element type for the sum and the success criterion; the physical form is over exact rationals."
  },
  {
   "property": "C19",
   "status": "proved",
   "theorems": [
    "c19_order_independent"
   ],
   "note": "Components whose results depend only on the state; exact rationals, units without offset."
  },
  {
   "property": "C20",
   "status": "proved",
   "theorems": [
    "c20_tendency_construction",
    "c20_diagnostic_construction",
    "c20_tendency_declares",
    "c20_diagnostic_declares",
    "c20_tendency_diagnostics_kept",
    "c20_diagnostic_call"
   ],
   "note": "SharedKeyError iff, for both kinds of composite and for the diagnostic call; kept diagnostics assume components keep to their declarations (C11)."
  },
  {
   "property": "C21",
   "status": "proved",
   "theorems": [
    "c21_combine_properties"
   ],
   "note": "Units that are compared are assumed present and known to the registry; dims criterion is the code's own (see C22)."
  },
  {
   "property": "C22",
   "status": "partial",
   "theorems": [
    "c22_sound_partial",
    "c22_complete_partial",
    "c22_symmetric_partial",
    "c22_named_dims",
    "c22_unsound_refuted",
    "c22_incomplete_refuted",
    "c22_asymmetric_refuted",
    "c22_combined_iff"
   ],
   "note": "False when exactly one declaration has '*': unsound, incomplete and asymmetric (three counterexamples). Proved when both or neither have '*'. Also proved: exactly which declarations are combined."
  },
  {
   "property": "C23",
   "status": "proved",
   "theorems": [
    "c23_only_own",
    "c23_spares",
    "c23_behaves",
    "c23_implicit_behaves"
   ],
   "note": "Memory is a list of cells and arrays are lists of cell indices (Heap.v). For any component programs, between component calls a composite changes only cells it allocated during this call. For components that change no existing array and depend only on values (they may keep, share and return arrays of the state) the composite changes nothing in memory and refines the value-level composite."
  },
  {
   "property": "C24",
   "status": "proved",
   "theorems": [
    "c24_orders",
    "c24_formula",
    "c24_textbook",
    "c24_returns",
    "c24_late_quantity_refuted"
   ],
   "note": "Proved for every call of every run, for quantities with a tendency in each of the calls the formula uses; any arithmetic, and with the textbook weights in exact arithmetic. A quantity that starts to get a tendency later is not stepped until the stored history has it (refuted theorem)."
  },
  {
   "property": "C25",
   "status": "proved",
   "theorems": [
    "c25_polynomial"
   ],
   "note": "Exact arithmetic; also covers the shorter formulas of the first calls."
  },
  {
   "property": "C26",
   "status": "proved",
   "theorems": [
    "c26_ab_refuses",
    "c26_leapfrog_refuses",
    "c26_bounded_history"
   ],
   "note": "Refusals for any call history including failed calls; history length exactly min(order-1, calls)."
  },
  {
   "property": "C27",
   "status": "partial",
   "theorems": [
    "c27_after_failure",
    "c27_never_trimmed",
    "c27_early_failure_partial",
    "c27_retry_refuted",
    "c27_history_refuted"
   ],
   "note": "False of the code: two counterexamples. What holds: failures before the step leave the stored tendencies alone. Also proved: exactly what every failed call leaves behind, and that an overfull memory is never trimmed."
  },
  {
   "property": "C28",
   "status": "proved",
   "theorems": [
    "c28_leapfrog",
    "c28_returns"
   ],
   "note": "Any arithmetic, any run, including when the step succeeds."
  },
  {
   "property": "C29",
   "status": "proved",
   "theorems": [
    "c29_filter",
    "c29_alpha_one"
   ],
   "note": "Stated for every later step of every run."
  },
  {
   "property": "C30",
   "status": "proved",
   "theorems": [
    "c30_three_stages",
    "c30_two_stages"
   ],
   "note": "Any arithmetic, after any earlier calls."
  },
  {
   "property": "C31",
   "status": "proved",
   "theorems": [
    "c31_convex",
    "c31_bounds"
   ],
   "note": "Convex sets of states, and bounds on one quantity."
  },
  {
   "property": "C32",
   "status": "proved",
   "theorems": [
    "c32_adams_bashforth",
    "c32_leapfrog",
    "c32_runge_kutta",
    "c32_runge_kutta_float_refuted"
   ],
   "note": "Any arithmetic for AdamsBashforth and Leapfrog; exact arithmetic for SSPRungeKutta with a binary64 counterexample."
  },
  {
   "property": "C33",
   "status": "partial",
   "theorems": [
    "c33_adams_bashforth",
    "c33_runge_kutta",
    "c33_leapfrog"
   ],
   "note": "Holds for AdamsBashforth and SSPRungeKutta. Leapfrog returns the attrs of the previous state, so it fails when the units change between calls (c34_leapfrog_unit_change_refuted)."
  },
  {
   "property": "C34",
   "status": "proved",
   "theorems": [
    "c34_physical",
    "c34_adams_bashforth",
    "c34_runge_kutta",
    "c34_leapfrog",
    "c34_unit_change_refuted",
    "c34_leapfrog_unit_change_refuted"
   ],
   "note": "Whole chained runs of the three steppers; for AdamsBashforth the set of quantities with tendencies is constant. Changing units between calls mixes units (two refuted theorems), as the property says."
  },
  {
   "property": "C35",
   "status": "partial",
   "theorems": [
    "c35_adams_bashforth",
    "c35_runge_kutta",
    "c35_leapfrog",
    "c35_clash",
    "c35_physical_rate",
    "c35_euler",
    "c35_construction_refuted"
   ],
   "note": "Proved for every stepper that was made. Construction itself is refused when a component's units are not spelled as the cleaned base units (refuted theorem)."
  },
  {
   "property": "C36",
   "status": "proved",
   "theorems": [
    "c36_adams_bashforth",
    "c36_runge_kutta",
    "c36_leapfrog",
    "c36_adams_bashforth_steady",
    "c36_runge_kutta_steady",
    "c36_leapfrog_steady"
   ],
   "note": "Exact arithmetic, whole runs."
  },
  {
   "property": "C37",
   "status": "partial",
   "theorems": [
    "c37_ab_spares",
    "c37_rk_spares",
    "c37_ab_memory",
    "c37_rk_memory",
    "c37_leap_spares",
    "c37_leap_memory",
    "c37_diagnostic_refuted",
    "c37_shared_refuted"
   ],
   "note": "AdamsBashforth and SSPRungeKutta: full, in every run, for all components; they also refine the value-level steppers of C29-C36. Leapfrog: only arrays of quantities with tendencies change, and exactly to the filtered values when the state's arrays do not overlap and the components neither keep nor return arrays of the state; both conditions are necessary (two refutations)."
  },
  {
   "property": "C38",
   "status": "partial",
   "theorems": [
    "c38_changed_timestep_partial",
    "c38_any_timestep_refuted"
   ],
   "note": "False of the code; a changed timestep is always refused."
  },
  {
   "property": "C39",
   "status": "proved",
   "theorems": [
    "c39_relaxation",
    "c39_returns",
    "c39_construction",
    "c39_step"
   ],
   "note": "Returned values in any arithmetic; monotone approach over whole forward Euler runs in exact arithmetic. pint's string for (units / s) is an oracle with the law that it denotes units per second. In floating point the between-ness can fail by rounding and is not claimed."
  },
  {
   "property": "C40",
   "status": "proved",
   "theorems": [
    "c40_difference",
    "c40_declared",
    "c40_declared_units",
    "c40_amount",
    "c40_step",
    "c40_returns",
    "c40_stepper_fails",
    "c40_missing"
   ],
   "note": "Values in any arithmetic; inversion and the reproduced step over whole runs in exact arithmetic."
  },
  {
   "property": "C41",
   "status": "proved",
   "theorems": [
    "c41_update_frequency",
    "c41_recording_transparent",
    "c41_called_once_refuted",
    "c41_differ_refuted",
    "c41_fixed_timestep"
   ],
   "note": "Over all call histories with any outcomes. The two refuted theorems concern readings beyond the statement: called at most once, and the docstring's 'must differ by' when time goes back."
  },
  {
   "property": "C42",
   "status": "partial",
   "theorems": [
    "c42_refused",
    "c42_accepted",
    "c42_inputs",
    "c42_call",
    "c42_separate",
    "c42_succeeds",
    "c42_error",
    "c42_shared_refuted"
   ],
   "note": "Construction, inputs, exact effect on every cell, and all failures, for any component program. 'Everything else is unchanged' is false when returned arrays share memory (c42_shared_refuted); it is proved when they do not overlap."
  },
  {
   "property": "C43",
   "status": "partial",
   "theorems": [
    "c43_tracers_fail_refuted",
    "c43_refuted"
   ],
   "note": "The property is violated: for every tracer that is not a declared input, the forwarded state can never be packed."
  },
  {
   "property": "C44",
   "status": "partial",
   "theorems": [
    "c44_fresh",
    "c44_repeat",
    "c44_constant_refuted",
    "c44_state_refuted"
   ],
   "note": "The property is violated for components that return arrays they keep or arrays of the state; proved for components that return new arrays, over any history of calls."
  },
  {
   "property": "C45",
   "status": "proved",
   "theorems": [
    "c45_pack",
    "c45_pack_iff",
    "c45_order_once",
    "c45_order_stable",
    "c45_unpack",
    "c45_pack_unpack",
    "c45_unpack_pack",
    "c45_tracer_dim_twice_refuted"
   ],
   "note": "Packing, its failures, unpacking of any array, both round trips. The refuted theorem is outside the quantifier: 'tracer' listed twice."
  },
  {
   "property": "C46",
   "status": "proved",
   "theorems": [
    "c46_consistent",
    "c46_reregister",
    "c46_units_kept",
    "c46_outputs",
    "c46_packer_dims"
   ],
   "note": "Over all histories, with the exceptions raised. Component outputs are as they were when the packer was made."
  },
  {
   "property": "C47",
   "status": "partial",
   "theorems": [
    "c47_refused_recorded",
    "c47_refused_unchanged_partial",
    "c47_register_iff",
    "c47_refused_recorded_refuted",
    "c47_listed_twice_refuted"
   ],
   "note": "The property is violated by registrations that conflict with a component's outputs; all other refusals change nothing. Also proved: those registrations are recorded just as accepted ones."
  },
  {
   "property": "C48",
   "status": "partial",
   "theorems": [
    "c48_init_tracers_partial",
    "c48_shapes_refuted"
   ],
   "note": "The property is violated in four situations; proved outside them, when the tracers and the other inputs share their dims."
  },
  {
   "property": "C49",
   "status": "proved",
   "theorems": [
    "c49_history",
    "c49_set_get",
    "c49_set_any_table"
   ],
   "note": "Refinement of the constant library to (condensible, name -> number and units) over all histories, for every table of aliases and every unit registry."
  },
  {
   "property": "C50",
   "status": "proved",
   "theorems": [
    "c50_two_hops",
    "c50_condensible",
    "c50_get_alias",
    "c50_circle",
    "c50_phase_circular"
   ],
   "note": "Two steps at most for every condensible but 'phase', for which the density of the liquid phase is shown to raise RuntimeError. get_alias is characterised for every table."
  },
  {
   "property": "C51",
   "status": "proved",
   "theorems": [
    "c51_reset",
    "c51_import"
   ],
   "note": "The global dictionaries are values in the model; rebinding them is replacing the value. set_constant never changes a stored DataArray in place."
  },
  {
   "property": "C52",
   "status": "proved",
   "theorems": [
    "c52_listing",
    "c52_items"
   ],
   "note": "For every table with distinct aliases (a Python dict), including circular ones. dict.update(self) copies the stored entries (CPython), not the overridden keys()."
  },
  {
   "property": "C53",
   "status": "partial",
   "theorems": [
    "c53_history",
    "c53_succeeds",
    "c53_units_refuted"
   ],
   "note": "Proved over all programs of store() and write() that do not raise, for states on one grid (each dim has one length, no dim is called 'time'), with aliases and store_names; that such programs do not raise is proved for states with the same quantities, dims and attributes. What netCDF4 does with times and values is a parameter; values of the right shape are assumed to be stored as they are. Refuted for units: the units of the later states of a batch are ignored."
  },
  {
   "property": "C54",
   "status": "partial",
   "theorems": [
    "c54_keeps_partial",
    "c54_run_keeps_partial",
    "c54_mismatch",
    "c54_nothing_cached_refuted",
    "c54_append_refuted"
   ],
   "note": "Proved: no write, failed or not, loses or changes anything already in the file, a failed write keeps the cache, and a mismatch of names is detected before anything is written. Refuted: if a variable turns out not to fit, the times have already been appended, and they are appended again at each further attempt; a write without cached states raises ValueError and creates the file."
  },
  {
   "property": "C55",
   "status": "proved",
   "theorems": [
    "c55_history",
    "c55_stored",
    "c55_failed",
    "c55_others",
    "c55_succeeds",
    "c55_missing",
    "c55_blocked"
   ],
   "note": "Proved over all histories of stores, exceptions, crashes at any point and removals of <file>.new. That <file> can be missing after a crash, and that a left-over <file>.new blocks later stores, are proved too."
  },
  {
   "property": "C56",
   "status": "partial",
   "theorems": [
    "c56_round_trip",
    "c56_own_dim_refuted",
    "c56_other_dim_refuted",
    "c56_timedelta_refuted",
    "c56_time_units_refuted"
   ],
   "note": "Proved for dates and for quantities that are not named like dims and whose attributes xarray does not decode. Refuted for quantities named like a dim, for timedeltas, and for units of time."
  },
  {
   "property": "C57",
   "status": "partial",
   "theorems": [
    "c57_prepare",
    "c57_lossless",
    "c57_same_alias_refuted",
    "c57_order_refuted",
    "c57_time_refuted"
   ],
   "note": "Proved: a state is stored with all its quantities exactly when no new name is that of another quantity or one still to be renamed. Refuted for two names with one alias, for an alias that makes one name into another, and for aliases that apply to 'time'."
  },
  {
   "property": "C58",
   "status": "proved",
   "theorems": [
    "c58_calls",
    "c58_constructor",
    "c58_netcdf"
   ],
   "note": "Arbitrary monitors that may share state. c58_netcdf: NetCDF monitors with different files behave as if used alone."
  },
  {
   "property": "C59",
   "status": "partial",
   "theorems": [
    "c59_get_iff",
    "c59_get_values",
    "c59_get_restore",
    "c59_restore_iff",
    "c59_restore_get",
    "c59_required_refuted"
   ],
   "note": "Values, shapes and the exact domain of both functions. Refuted with require_wildcard_matches in another order: restore_dimensions does not take it. Array coordinates are not modelled."
  },
  {
   "property": "C60",
   "status": "proved",
   "theorems": [
    "c60_aliases"
   ],
   "note": "Characterises the alias completely: the last one declared in the first kind of properties that has one."
  },
  {
   "property": "C61",
   "status": "proved",
   "theorems": [
    "c61_instance_iff",
    "c61_one_kind",
    "c61_inherits"
   ],
   "note": "Exact characterisation of isinstance for objects that do not inherit, and for those that do."
  },
  {
   "property": "C62",
   "status": "partial",
   "theorems": [
    "c62_documented",
    "c62_default",
    "c62_timezone",
    "c62_needs_package",
    "c62_only_named",
    "c62_unknown_refuted"
   ],
   "note": "Every documented name, any capitalisation (ASCII). The datetime classes are oracles. Refuted: any other name returns None."
  },
  {
   "property": "C63",
   "status": "partial",
   "theorems": [
    "c63_exact",
    "c63_same_list_partial",
    "c63_reordering",
    "c63_duplicates_refuted"
   ],
   "note": "Holds if one of the lists has no duplicates; refuted otherwise. Also proved: exactly when it holds."
  },
  {
   "property": "C64",
   "status": "proved",
   "theorems": [
    "c64_constant_tendency",
    "c64_construction",
    "c64_constant_diagnostic"
   ],
   "note": "Stated without tendencies_in_diagnostics; C14 says what that option adds."
  },
  {
   "property": "C65",
   "status": "partial",
   "theorems": [
    "c65_columns_align_partial",
    "c65_columns_refuted"
   ],
   "note": "The property is violated when the tracers list the wildcard dims in another order than the other inputs; proved when the wildcard dims are the same."
  },
  {
   "property": "C66",
   "status": "partial",
   "theorems": [
    "c66_listing",
    "c66_listing_iff",
    "c66_water",
    "c66_condensible_refuted"
   ],
   "note": "The listing is shown complete and without repetition whenever it can be made, which is exactly when all names in the categories stand for a constant. Refuted after set_condensible_name('methane'): KeyError. The formatting of numbers and headings is not modelled."
  },
  {
   "property": "C67",
   "status": "partial",
   "theorems": [
    "c67_undisturbed_partial",
    "c67_on_store",
    "c67_refuted"
   ],
   "note": "Proved for monitors that write at each store, and for arrays left alone until they are written. Refuted otherwise: states are cached by reference."
  },
  {
   "property": "C68",
   "status": "partial",
   "theorems": [
    "c68_kind",
    "c68_recognised",
    "c68_accepted",
    "c68_stepper",
    "c68_plain",
    "c68_implicit_partial",
    "c68_implicit_fails",
    "c68_scaling_refuted"
   ],
   "note": "Kind and calls at any nesting depth. The timestep reaches implicit components exactly if no ScalingWrapper is around another wrapper; otherwise every call raises."
  },
  {
   "property": "C69",
   "status": "partial",
   "theorems": [
    "c69_tendency",
    "c69_stepper",
    "c69_diagnostic",
    "c69_tendency_spares",
    "c69_stepper_spares",
    "c69_diagnostic_spares",
    "c69_state_refuted",
    "c69_stepper_refuted"
   ],
   "note": "The frame is proved for every array_call program and every choice numpy makes between view and copy. 'The state is as it was' is refuted: an array_call that updates its input in place changes the caller's state (c69_state_refuted); a Stepper that does so reports zero tendencies (c69_stepper_refuted)."
  },
  {
   "property": "C70",
   "status": "partial",
   "theorems": [
    "c70_tendency_inputs",
    "c70_stepper_inputs",
    "c70_diagnostic_inputs",
    "c70_tendency_outputs",
    "c70_stepper_outputs",
    "c70_diagnostic_outputs",
    "c70_new_refuted"
   ],
   "note": "Inputs element by element, outputs array by array, for every array_call program. numpy's choice between view and copy in a reshape is an oracle (cp). That returned arrays are independent is refuted (c70_new_refuted)."
  },
  {
   "property": "C71",
   "status": "proved",
   "theorems": [
    "c71_tendency",
    "c71_stepper",
    "c71_diagnostic",
    "c71_in_composites",
    "c71_proper"
   ],
   "note": "For all array_calls that change nothing that existed. That the tendencies are proper (needed to use the component in a composite) is derived when their dims contain no '*'."
  },
  {
   "property": "C72",
   "status": "proved",
   "theorems": [
    "c72_call",
    "c72_isolated",
    "c72_history",
    "c72_figures"
   ],
   "note": "For every plot function that writes only to memory it was given or allocated. matplotlib itself is not modelled: a figure is an abstract value."
  },
  {
   "property": "C73",
   "status": "proved",
   "theorems": [
    "c73_default_tendency",
    "c73_default_stepper",
    "c73_default_diagnostic",
    "c73_tendency",
    "c73_stepper",
    "c73_diagnostic",
    "c73_represents_tendency",
    "c73_represents_stepper",
    "c73_represents_diagnostic",
    "c73_tendency_asks",
    "c73_stepper_asks",
    "c73_diagnostic_asks",
    "c73_set_backend"
   ],
   "note": "The backend is a record of functions (its methods keep no data of their own) and raw arrays are numpy arrays. Composites and time steppers use .attrs and arithmetic of DataArrays directly; they do not go through the backend and are not covered."
  },
  {
   "property": "C74",
   "status": "proved",
   "theorems": [
    "c74_columns",
    "c74_stored_order",
    "c74_single_column",
    "c74_same_wildcard",
    "c74_one_wildcard"
   ],
   "note": "Columns of what array_call gets and returns are related by a condition on array_call (columnwise); the five theorems cover all three kinds of component. Diagnostics of a component that also reports its tendencies are covered for the entries array_call returned only when tendencies_in_diagnostics is off; the added entries are the subject of C14 and C15. c74_stored_order_matters shows that the condition is needed."
  },
  {
   "property": "C75",
   "status": "partial",
   "theorems": [
    "c75_new_state",
    "c75_next_call_fails",
    "c75_incomplete_refuted",
    "c75_tendency_steppers_partial",
    "c75_quickstart_stops",
    "c75_complete_partial"
   ],
   "note": "The documented main loop relies on it. False of Steppers (c75_incomplete_refuted, and in general c75_next_call_fails and c75_quickstart_stops); proved for the TendencySteppers and for Steppers that output everything."
  },
  {
   "property": "C76",
   "status": "proved",
   "theorems": [
    "c76_everything",
    "c76_clock",
    "c76_terminates",
    "c76_more_passes",
    "c76_backwards",
    "c76_passes",
    "c76_leaves_time",
    "c76_invariant",
    "c76_nothing_lost"
   ],
   "note": "Processes that change their argument in place (Leapfrog) are outside the loop model."
  },
  {
   "property": "C77",
   "status": "partial",
   "theorems": [
    "c77_call",
    "c77_implicit",
    "c77_diagnostics",
    "c77_declared",
    "c77_accepted",
    "c77_accepts_more_refuted",
    "c77_accepts_less_refuted"
   ],
   "note": "Proved for calls of any tree of composites, for what is declared when all of them can be made, and for which inputs are accepted when for each quantity all or none have the wildcard. False otherwise: which declarations are accepted depends on the grouping (two counterexamples). Tendencies without dims take them from the inputs of the composite they are in, and are left out."
  },
  {
   "property": "C78",
   "status": "partial",
   "theorems": [
    "c78_resume",
    "c78_two_runs",
    "c78_same_run",
    "c78_adams_bashforth_partial",
    "c78_runge_kutta",
    "c78_stepper",
    "c78_beside",
    "c78_components",
    "c78_adams_bashforth_refuted",
    "c78_leapfrog_refuted",
    "c78_wrapper_refuted"
   ],
   "note": "Proved for objects that keep nothing that matters (any relation `Rel` under which the objects are interchangeable), with instances for AdamsBashforth of order 1, SSPRungeKutta, Stepper, and components in general. Refuted by concrete runs for AdamsBashforth of order 2, Leapfrog and UpdateFrequencyWrapper."
  },
  {
   "property": "C79",
   "status": "partial",
   "theorems": [
    "c79_units",
    "c79_required",
    "c79_none_missing",
    "c79_stepped",
    "c79_same_dims_refuted",
    "c79_documented_refuted"
   ],
   "note": "Proved: presence, units, number and stepping of tracers. Refuted: the documented shape requirement (extra slices are dropped) and the documented meaning of tracer_tendency_time_unit = \"s\"."
  },
  {
   "property": "C80",
   "status": "proved",
   "theorems": [
    "c80_run",
    "c80_clock",
    "c80_terminates",
    "c80_nothing_lost",
    "c80_two_runs",
    "c80_everything"
   ],
   "note": "Leapfrog is the first process; further processes and the monitor are arbitrary, and have memory of their own. Hypotheses: well-formed initial state, components that return well-formed tendencies, further processes that keep states well-formed."
  },
  {
   "property": "C81",
   "status": "partial",
   "theorems": [
    "c81_leapfrog",
    "c81_leapfrog_object",
    "c81_leapfrog_retry_refuted",
    "c81_adams_bashforth",
    "c81_euler",
    "c81_runge_kutta",
    "c81_memory_refuted"
   ],
   "note": "Refuted for the state given to Leapfrog and for the memory of SSPRungeKutta; for AdamsBashforth of higher order see C27. Proved: exactly what a failed call of each stepper can leave behind, and that SSPRungeKutta and steppers of order one behave as new ones whatever calls they had."
  },
  {
   "property": "C82",
   "status": "partial",
   "theorems": [
    "c82_components",
    "c82_adams_bashforth",
    "c82_runge_kutta",
    "c82_leapfrog",
    "c82_process_adams_bashforth",
    "c82_process_runge_kutta",
    "c82_stepper",
    "c82_process_stepper",
    "c82_loop",
    "c82_run",
    "c82_leapfrog_run",
    "c82_datetime_refuted"
   ],
   "note": "Any arithmetic. Components through C12; Steppers and each time stepper over any history of calls; the main loop over any relation that the processes respect, with instances for Steppers, AdamsBashforth and SSPRungeKutta, and the loop with a Leapfrog object as its first process. c82_datetime_refuted: SSPRungeKutta raises if the state holds a second datetime."
  },
  {
   "property": "C83",
   "status": "partial",
   "theorems": [
    "c83_composite_partial",
    "c83_stepper_partial",
    "c83_diagnostic_composite_partial",
    "c83_properties_partial",
    "c83_covers_needed",
    "c83_dims_refuted",
    "c83_repeated_refuted"
   ],
   "note": "Composites, time steppers and diagnostic composites, tracers included; c83_covers_needed shows that the condition on dims is necessary for every combination. c83_dims_refuted and c83_repeated_refuted: states with all declared inputs that a component refuses."
  },
  {
   "property": "C84",
   "status": "partial",
   "theorems": [
    "c84_composite",
    "c84_component",
    "c84_diagnostic_composite",
    "c84_adams_bashforth_partial",
    "c84_leapfrog_partial",
    "c84_runge_kutta_partial",
    "c84_runge_kutta_new_partial",
    "c84_tendency_units_refuted",
    "c84_output_units_refuted",
    "c84_tracer_refuted"
   ],
   "note": "c84_composite, c84_component and c84_diagnostic_composite are in full. For steppers the full claim is false: c84_tendency_units_refuted, c84_output_units_refuted and c84_tracer_refuted; what holds is in the _partial theorems."
  },
  {
   "property": "C85",
   "status": "partial",
   "theorems": [
    "c85_spelling",
    "c85_signs",
    "c85_same",
    "c85_compatible_partial",
    "c85_converts_partial",
    "c85_amount",
    "c85_clean",
    "c85_one_oracle",
    "c85_symmetric_refuted",
    "c85_converts_refuted",
    "c85_valid_refuted"
   ],
   "note": "c85_signs, c85_same and c85_amount are in full. Symmetry, conversion and is_valid_unit are false in full (c85_symmetric_refuted, c85_converts_refuted, c85_valid_refuted): `.to(units)` and `Quantity(value, units)` bypass the replacements made by UnitRegistry.__call__. The _partial theorems are for strings that pint reads itself. c85_one_oracle justifies the single oracle used elsewhere in the model."
  },
  {
   "property": "C86",
   "status": "partial",
   "theorems": [
    "c86_repr",
    "c86_text",
    "c86_repeats",
    "c86_ends",
    "c86_failed_refuted"
   ],
   "note": "c86_repr, c86_text, c86_repeats and c86_ends are in full for graphs whose attributes can all be printed (c86_ends for all). After a print that raised, the claim is false: c86_failed_refuted (the guard is not reset)."
  },
  {
   "property": "C87",
   "status": "proved",
   "theorems": [
    "c87_file",
    "c87_leapfrog"
   ],
   "note": "Requires states on one grid with a fixed set of quantities (the conditions of C53), aliases without clashes (C57) and a library that can express all times."
  },
  {
   "property": "C88",
   "status": "partial",
   "theorems": [
    "c88_taken_up_partial",
    "c88_restart_beside",
    "c88_euler",
    "c88_components",
    "c88_stepper",
    "c88_euler_diagnostics",
    "c88_stepper_diagnostics",
    "c88_reads_own_diagnostic_refuted",
    "c88_runge_kutta",
    "c88_runge_kutta_diagnostics"
   ],
   "note": "Partial: for processes that remember nothing and read none of the diagnostics given (forward Euler, SSPRungeKutta and Steppers of such components are shown to be of this kind). A component that reads one of its own diagnostics is refuted; steppers with a memory are refuted in C78."
  },
  {
   "property": "C89",
   "status": "partial",
   "theorems": [
    "c89_exact_partial",
    "c89_within",
    "c89_restart_partial",
    "c89_odd_second_refuted"
   ],
   "note": "Partial: exact within 2^32 seconds of 1970 (1833 to 2106); at most a microsecond off elsewhere; refuted for 2150-01-01 00:00:01. Rounding is defined in Clock64.v and compared with Coq's SpecFloat on examples. That the reading library gives nanoseconds is assumed (numpy_clock)."
  },
  {
   "property": "C90",
   "status": "partial",
   "theorems": [
    "c90_order_partial",
    "c90_unique",
    "c90_linear_partial",
    "c90_run_partial",
    "c90_time_only",
    "c90_time_dependent_refuted"
   ],
   "note": "Partial: the time is held fixed over the step. Refuted for time-dependent tendencies: the stages all see the time at the start of the step, so a time-dependent forcing is integrated as by forward Euler (c90_time_only). Right-hand sides are polynomials; the exact solution is that of formal power series (c90_unique)."
  },
  {
   "property": "C91",
   "status": "partial",
   "theorems": [
    "c91_linear",
    "c91_quadratic_partial",
    "c91_quadratic_refuted"
   ],
   "note": "Linear functions in full. Quadratic functions without the filter: exact after every second call; after the other calls off by exactly b2 h^2, the error of the first (Euler) step, which is never lost (c91_quadratic_refuted)."
  },
  {
   "property": "C92",
   "status": "proved",
   "theorems": [
    "c92_stepper",
    "c92_composite",
    "c92_diagnostic_composite"
   ],
   "note": "The spelling of units (clean_units) is an oracle. Units must be known to the registry for quantities declared more than once (see C21). That what is returned is what is declared is C84."
  },
  {
   "property": "C93",
   "status": "partial",
   "theorems": [
    "c93_adams_bashforth",
    "c93_leapfrog",
    "c93_once",
    "c93_euler",
    "c93_runge_kutta_refuted"
   ],
   "note": "Refuted for SSPRungeKutta (c93_runge_kutta_refuted): the intermediate states keep the time of the state given, so the stages after the first get the kept output, however short the interval. What holds instead is proved: one evaluation a step (c93_once), and the step is a forward Euler step with the tendencies kept (c93_euler, one component, exact arithmetic). The transparency theorems assume an ImplicitTendencyComponent does not raise TypeError when given a timestep, since the wrapper would then call it without."
  },
  {
   "property": "C94",
   "status": "partial",
   "theorems": [
    "c94_wrapper",
    "c94_keeps",
    "c94_same_arrays",
    "c94_adams_bashforth",
    "c94_runge_kutta",
    "c94_leapfrog",
    "c94_new",
    "c94_spoilt_refuted"
   ],
   "note": "Refuted for callers (c94_spoilt_refuted): the diagnostics a time stepper returns are the kept arrays, and if the component returned one array as tendency and diagnostic, scaling the diagnostic in place changes the tendencies of later steps. Proved for everything the library does. Changes to the kept dictionaries themselves by a program that calls the wrapper directly are not modelled."
  },
  {
   "property": "C95",
   "status": "proved",
   "theorems": [
    "c95_ab_converges",
    "c95_rk_converges",
    "c95_leap_converges",
    "c95_leap_plain_converges",
    "c95_adams_bashforth",
    "c95_runge_kutta",
    "c95_leapfrog",
    "c95_leapfrog_plain",
    "c95_adds_up",
    "c95_linear",
    "c95_linear_rates"
   ],
   "note": "Exact arithmetic: rounding is not in these bounds. First order only, for every scheme: SSPRungeKutta evaluates every stage at the time of the start of the step, so it is no better for rates that depend on the time; the general bounds (c95_adams_bashforth and so on) give more for curves that the formulas miss by less. Leapfrog for 0 <= asselin_strength <= 1 and 0 <= alpha <= 1, with a bound that grows as the strength decreases to zero unless it is zero."
  },
  {
   "property": "C96",
   "status": "proved",
   "theorems": [
    "c96_adams_bashforth",
    "c96_runge_kutta",
    "c96_adds_up",
    "c96_double"
   ],
   "note": "Leapfrog is left out. For AdamsBashforth the bound of one step is ((1 + u)^8 - 1) times the sum of the sizes of all terms, which is not the smallest possible. c96_double rests on the standard library's axioms of the real numbers, through Flocq (see section 5 of DESIGN.md); the other theorems of C96 rest on none."
  },
  {
   "property": "C97",
   "status": "partial",
   "theorems": [
    "c97_euler",
    "c97_runge_kutta",
    "c97_euler_near",
    "c97_runge_kutta_near",
    "c97_leapfrog_unfiltered",
    "c97_leapfrog_runs_away",
    "c97_leapfrog",
    "c97_leapfrog_near",
    "c97_leapfrog_limit",
    "c97_leapfrog_filter_runs_away",
    "c97_adams_bashforth",
    "c97_adams_bashforth_near",
    "c97_adams_bashforth_refuted",
    "c97_leapfrog_refuted"
   ],
   "note": "Proved for AdamsBashforth of order 1 and for SSPRungeKutta, and for AdamsBashforth of every order with timesteps up to a fifth of the timescale (c97_adams_bashforth_near), and for Leapfrog with a filter and timesteps up to half the filter strength times the timescale, a fortieth of it by default (c97_leapfrog_near; c97_leapfrog_limit for the limit alone, up to about twice that). Refuted for AdamsBashforth of the orders 2 to 4 and for Leapfrog with its default filter, which can go past the equilibrium with a timestep of one timescale (c97_adams_bashforth_refuted, c97_leapfrog_refuted). Leapfrog without a filter runs away from the equilibrium with every timestep (c97_leapfrog_runs_away), and with a filter with every timestep above the bound of c97_leapfrog_limit (c97_leapfrog_filter_runs_away): by default, with every timestep longer than a twentieth of the timescale. Exact arithmetic; the composite holds this component only."
  },
  {
   "property": "C98",
   "status": "proved",
   "theorems": [
    "c98_run_returns",
    "c98_adams_bashforth_returns",
    "c98_runge_kutta_returns",
    "c98_leapfrog_returns",
    "c98_composite_returns",
    "c98_component_returns",
    "c98_stepper_returns",
    "c98_component",
    "c98_stepper",
    "c98_composite",
    "c98_adams_bashforth",
    "c98_runge_kutta",
    "c98_leapfrog",
    "c98_adams_bashforth_run",
    "c98_runge_kutta_run",
    "c98_leapfrog_run",
    "c98_run"
   ],
   "note": "The components are related in pairs (local); c98_component and c98_stepper prove it for column-by-column components without tracer packing, whose outputs all have '*' and name only dims of the inputs, and whose memory does not depend on the state. What each call returns is compared when both return. The c98_*_returns theorems show that the run on the part does return when the run on the whole grid does, for components that return on the small grid whenever they return on the large one and for states whose arrays have the sizes of their grid. c98_component_returns and c98_stepper_returns show that single calls return too, if array_call does (serves), for components whose inputs have '*' among their dims. That their outputs have the sizes of the grid, which the runs need of components, is a hypothesis there: it fails when the state lacks a dim that an input names."
  },
  {
   "property": "C99",
   "status": "partial",
   "theorems": [
    "c99_run",
    "c99_adams_bashforth",
    "c99_runge_kutta",
    "c99_stepper",
    "c99_beside",
    "c99_first",
    "c99_netcdf",
    "c99_leapfrog",
    "c99_in_place_refuted",
    "c99_leapfrog_refuted"
   ],
   "note": "c99_run holds for any mix of Steppers, AdamsBashforth and SSPRungeKutta objects and monitors that keep references. c99_in_place_refuted: a Stepper that writes into the arrays it is given changes states a monitor already stored. c99_leapfrog has Leapfrog as the only process; it needs the tendencies to be of the same quantities at every call, which the output checks of the components ensure for a fixed list of them, and c99_leapfrog_refuted shows that it fails for user code without them."
  },
  {
   "property": "C100",
   "status": "proved",
   "theorems": [
    "c100_run",
    "c100_adams_bashforth",
    "c100_runge_kutta",
    "c100_leapfrog",
    "c100_level"
   ],
   "note": "The components' condition is that of C98 (local, proved of column-by-column components by c98_component and c98_stepper and of composites by c98_composite). A component that treats one point specially is outside it. c100_run and c100_leapfrog ask of a monitor only that what it remembers of a stored state is alike for states that agree up to the move."
  },
  {
   "property": "C101",
   "status": "proved",
   "theorems": [
    "c101_run",
    "c101_adams_bashforth",
    "c101_runge_kutta",
    "c101_leapfrog",
    "c101_composite",
    "c101_balanced_run",
    "c101_balanced_adams_bashforth",
    "c101_balanced_runge_kutta",
    "c101_balanced_leapfrog",
    "c101_run_ends",
    "c101_adams_bashforth_ends",
    "c101_runge_kutta_ends",
    "c101_leapfrog_ends"
   ],
   "note": "Exact arithmetic. What the components must do is a hypothesis; an example with cubic drag meets it. The first theorems compare two runs that both return; the c101_*_ends theorems also say that the turned run returns, raises the same exception or goes on exactly as the other does, for components and monitors whose exceptions do not depend on values (the condition of C102) and states of the same shapes."
  },
  {
   "property": "C102",
   "status": "proved",
   "theorems": [
    "c102_tendency",
    "c102_stepper",
    "c102_diagnostic",
    "c102_composite",
    "c102_implicit_composite",
    "c102_diagnostic_composite",
    "c102_adams_bashforth",
    "c102_runge_kutta",
    "c102_leapfrog",
    "c102_stepper_process",
    "c102_run",
    "c102_leapfrog_run",
    "c102_relaxation",
    "c102_constant_tendency",
    "c102_constant_diagnostic",
    "c102_differencing",
    "c102_update_frequency"
   ],
   "note": "Both the result and the exception are compared, so this also says that the comparisons of C98, C100 and C101, which are about runs that return, do not depend on values when the shapes are the same. Leapfrog objects must have alpha equal to 1 on both sides or on neither. Exceptions of numpy about values (such as errstate='raise') are not modelled."
  },
  {
   "property": "C103",
   "status": "proved",
   "theorems": [
    "c103_tendency",
    "c103_diagnostic",
    "c103_stepper",
    "c103_component",
    "c103_composite",
    "c103_adams_bashforth",
    "c103_runge_kutta",
    "c103_leapfrog",
    "c103_diagnostic_composite",
    "c103_adams_bashforth_ends",
    "c103_runge_kutta_ends",
    "c103_leapfrog_ends",
    "c103_run",
    "c103_run_ends",
    "c103_stepper_process",
    "c103_adams_bashforth_then",
    "c103_runge_kutta_then",
    "c103_leapfrog_then",
    "c103_adams_bashforth_then_ends",
    "c103_runge_kutta_then_ends",
    "c103_leapfrog_then_ends",
    "c103_differencing"
   ],
   "note": "Exact arithmetic. The calls are equations, exceptions included. The runs are compared when both return; the _ends theorems, for components, processes and monitors that raise by shapes and units only, also say that the rescaled run ends as the original does. The _then theorems add other processes, such as Steppers, after the tendency stepper. Components with tracer packing are not covered. What array_call must do (homogeneous) is the hypothesis; C101 also moves the points of the grid, but takes what the whole component does as its hypothesis."
  }
 ]
}