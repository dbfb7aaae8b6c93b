{"id": "C01", "title": "Extracted arrays have exactly the declared shape", "statement": "Whenever get_numpy_arrays_with_properties(state, properties) returns, the raw array of each quantity has one axis per declared dim; a named axis has that dimension's common length in the state (1 if no listed quantity has it) and the '*' axis has the product of the lengths of all wildcard-matched dims, the same for every quantity.", "quantifier": "all states, all property dictionaries, any number of dims and quantities, any lengths", "why_tests_cant": "Shapes and dim layouts are unbounded; tests sample a few 1-3 dimensional arrays.", "anchors": ["sympl/_core/get_np_arrays.py:get_numpy_arrays_with_properties", "sympl/_core/wildcard.py:get_wildcard_matches_and_dim_lengths", "sympl/_core/backend.py:DataArrayBackend._get_numpy_array"]}
{"id": "C02", "title": "Extracted values are the state's values at the same named coordinates", "statement": "Each element of an extracted array equals the unit-converted state value at the same named coordinates: dims are matched by name whatever the storage order, dims the quantity lacks are broadcast, and a '*' position denotes the same combination of wildcard coordinates (row-major) for every quantity, so columns are co-located.", "quantifier": "all states, property dictionaries, and all coordinate assignments within range", "why_tests_cant": "A transposition or flattening mistake can cancel on symmetric or small shapes; only a pointwise statement for all shapes excludes it.", "anchors": ["sympl/_core/get_np_arrays.py:get_numpy_arrays_with_properties", "sympl/_core/wildcard.py:flatten_wildcard_dims", "sympl/_core/backend.py:DataArrayBackend._get_numpy_array"]}
{"id": "C03", "title": "Extraction is rejected with InvalidStateError exactly on inconsistent dims", "statement": "The wildcard/dimension scan raises InvalidStateError iff (scanning in order) some quantity has a dim it does not list while not listing '*', or two quantities disagree on the length of a dim; if every quantity is present with dims and units declared and neither defect exists it succeeds.", "quantifier": "all states and property dictionaries with well-formed data arrays", "why_tests_cant": "An iff over all states needs both directions for unboundedly many quantities.", "anchors": ["sympl/_core/wildcard.py:get_wildcard_matches_and_dim_lengths"]}
{"id": "C04", "title": "Restored outputs carry declared units, dims and named values", "statement": "Whenever restore_data_arrays_with_properties returns, it has exactly the non-ignored declared outputs as keys; each has the declared units, its declared dims with '*' replaced by the wildcard dims of the inputs, and at all named coordinates the value the raw array has at the corresponding position.", "quantifier": "all raw dictionaries, property dictionaries, input states and coordinates", "why_tests_cant": "Same unbounded shape/layout space as extraction.", "anchors": ["sympl/_core/restore_dataarray.py:restore_data_arrays_with_properties", "sympl/_core/wildcard.py:fill_dims_wildcard", "sympl/_core/backend.py:DataArrayBackend.create_quantity"]}
{"id": "C05", "title": "Extract-then-restore is the identity on named values", "statement": "If the raw arrays extracted from a state are handed back unchanged with the same properties, restoration succeeds and each returned quantity equals, at all named coordinates, the state quantity converted to the declared units (broadcast over wildcard dims it lacked).", "quantifier": "all states and property dictionaries on which extraction succeeds with distinct aliases", "why_tests_cant": "A round trip must hold for every layout, not the layouts a test lists.", "anchors": ["sympl/_core/get_np_arrays.py:get_numpy_arrays_with_properties", "sympl/_core/restore_dataarray.py:restore_data_arrays_with_properties"]}
{"id": "C06", "title": "A raw output whose shape contradicts its declared dims is rejected", "statement": "restore_data_arrays_with_properties never accepts a raw array whose rank or axis lengths contradict the declared dims and the dimension lengths of the input state. (Holds for outputs without '*'; violated for outputs with '*', where only the total element count is compared and the data are silently rearranged.)", "quantifier": "all raw arrays, dims and input states", "why_tests_cant": "Needs all wrong shapes, not a sample.", "anchors": ["sympl/_core/restore_dataarray.py:check_array_shape", "sympl/_core/wildcard.py:expand_array_wildcard_dims"]}
{"id": "C07", "title": "Initialised output arrays fit the declared outputs", "statement": "initialize_numpy_arrays_with_properties called on the raw input of a component returns, for each declared non-tracer output whose dims occur among the inputs, an all-zero array whose axis lengths equal those of the inputs' axes of the same name, and restoring those arrays succeeds when outputs have no alias. (Violated with an alias: the arrays are keyed by name and restoration looks up the alias.)", "quantifier": "all raw states, input and output property dictionaries", "why_tests_cant": "Composition of two functions over unbounded shapes.", "anchors": ["sympl/_core/init_np_arrays.py:initialize_numpy_arrays_with_properties", "sympl/_core/restore_dataarray.py:get_alias_or_name"]}
{"id": "C08", "title": "Unit conversion is exact, reversible and never mislabels", "statement": "DataArray.to_units(u) returns the data with each value physically equal (same base value), the same dims and units attribute u or an equal unit; converting back recovers the values; KeyError if there is no units attribute, ValueError iff the units are incompatible; the argument is unchanged.", "quantifier": "all data arrays and all pairs of registered units (affine)", "why_tests_cant": "All units and values.", "anchors": ["sympl/_core/units.py:data_array_to_units", "sympl/_core/dataarray.py:DataArray.to_units"]}
{"id": "C09", "title": "Output checks raise exactly on missing or extra outputs", "statement": "A component's raw output dictionary is accepted iff every declared quantity appears under its name or one of its aliases (or is an auto-inserted tendency diagnostic) and every key is a declared name or alias; otherwise ComponentMissingOutputError is raised if something is missing, else ComponentExtraOutputError.", "quantifier": "all declared property dictionaries and raw output dictionaries, for tendencies, diagnostics and outputs", "why_tests_cant": "Iff over arbitrary dictionaries.", "anchors": ["sympl/_core/base_components.py:TendencyChecker", "sympl/_core/base_components.py:DiagnosticChecker", "sympl/_core/base_components.py:OutputChecker"]}
{"id": "C10", "title": "An accepted raw output can always be restored by name lookup", "statement": "If a raw output dictionary passes the output check then restoration finds the raw array of each declared output. (Violated when an alias exists and the component used the full name: the check passes, restoration raises KeyError.)", "quantifier": "all property dictionaries and raw outputs", "why_tests_cant": "Mismatch between two independent lookups shows only on particular alias configurations.", "anchors": ["sympl/_core/base_components.py:OutputChecker._check_missing_outputs", "sympl/_core/restore_dataarray.py:get_alias_or_name"]}
{"id": "C11", "title": "A successful component call returns exactly what it declares", "statement": "When a TendencyComponent, ImplicitTendencyComponent, DiagnosticComponent or Stepper without tracers returns, its result dictionaries have exactly the declared keys, each with the declared units and declared dims (wildcards filled), for every array_call implementation.", "quantifier": "all states, all property dictionaries, all array_call implementations", "why_tests_cant": "array_call is arbitrary user code.", "anchors": ["sympl/_core/base_components.py:Stepper.__call__", "sympl/_core/base_components.py:TendencyComponent.__call__", "sympl/_core/base_components.py:ImplicitTendencyComponent.__call__", "sympl/_core/base_components.py:DiagnosticComponent.__call__"]}
{"id": "C12", "title": "Components depend only on declared inputs and time", "statement": "Two states that agree on the component's declared input quantities and on 'time' (and on tracers when used) give the same result or the same exception.", "quantifier": "all pairs of states, all components", "why_tests_cant": "Non-interference relates two executions.", "anchors": ["sympl/_core/base_components.py:TendencyComponent.__call__", "sympl/_core/get_np_arrays.py:get_numpy_arrays_with_properties"]}
{"id": "C13", "title": "array_call runs only on validated input", "statement": "If a declared input is missing, lacks units, has unconvertible units, unexpected dims or a conflicting length, the call raises and array_call is never invoked.", "quantifier": "all states and components", "why_tests_cant": "All ways for a state to be invalid.", "anchors": ["sympl/_core/base_components.py:InputChecker.check_inputs", "sympl/_core/base_components.py:DiagnosticComponent.__call__"]}
{"id": "C14", "title": "tendencies_in_diagnostics exposes the tendencies verbatim", "statement": "With tendencies_in_diagnostics=True a TendencyComponent/ImplicitTendencyComponent returns for each tendency X the diagnostic X_tendency_from_<name> equal to it, and the other diagnostics and all tendencies are unchanged w.r.t. the same component with the option off.", "quantifier": "all states and components whose diagnostic names do not clash with the generated names", "why_tests_cant": "All component outputs.", "anchors": ["sympl/_core/base_components.py:TendencyComponent._insert_tendencies_to_diagnostics", "sympl/_core/base_components.py:TendencyComponent._insert_tendency_properties"]}
{"id": "C15", "title": "Stepper tendency diagnostics are finite differences", "statement": "With tendencies_in_diagnostics=True a Stepper returns X_tendency_from_<name> = (new X - input X)/timestep for each unaliased output, in the output's units per time unit; with an alias the call raises KeyError.", "quantifier": "all states, steppers and nonzero timesteps", "why_tests_cant": "All outputs/timesteps.", "anchors": ["sympl/_core/base_components.py:Stepper._insert_tendencies_to_diagnostics", "sympl/_core/base_components.py:Stepper._insert_tendency_properties"]}
{"id": "C16", "title": "Component construction rejects exactly the malformed property dictionaries", "statement": "Constructing a component raises InvalidPropertyDictError iff an input lacks units or dims, an output lacks units, or lacks dims without being an input, two quantities of one dictionary share an alias, or a shared quantity's units are incompatible with the input's (per-second for tendencies), or it uses tracers and a tracer (registered, or put first by the component) is one of its outputs. A component that uses tracers without tracer_dims, or with tracer_dims that lack 'tracer', raises ValueError.", "quantifier": "all property dictionaries", "why_tests_cant": "Iff over arbitrary dictionaries.", "anchors": ["sympl/_core/base_components.py:InputChecker.__init__", "sympl/_core/base_components.py:TendencyChecker.__init__", "sympl/_core/base_components.py:DiagnosticChecker.__init__", "sympl/_core/base_components.py:OutputChecker.__init__", "sympl/_core/base_components.py:check_overlapping_aliases"]}
{"id": "C17", "title": "Constructing one component does not affect another", "statement": "Constructing an instance never changes how other instances of the class behave. (Violated: with class-level property dictionaries, tendencies_in_diagnostics=True inserts entries into the shared dictionary, and a later instance built without the option then fails the diagnostic check; a Stepper construction that raises leaves such entries too, and outputs as new inputs.)", "quantifier": "all construction histories", "why_tests_cant": "Depends on the order of constructions in a process.", "anchors": ["sympl/_core/base_components.py:TendencyComponent._insert_tendency_properties", "sympl/_core/base_components.py:Stepper._insert_tendency_properties"]}
{"id": "C18", "title": "Composite tendencies are the physical sum of component tendencies", "statement": "A tendency composite's output for a quantity is, at all named coordinates, the sum over components of their tendencies converted to the units of the first component giving that quantity; units/attrs are those of the first.", "quantifier": "any number of components, any tendencies with compatible units and dims", "why_tests_cant": "Unbounded number of components and mixtures of units/dim orders.", "anchors": ["sympl/_core/composite.py:TendencyComponentComposite.__call__", "sympl/_core/composite.py:ImplicitTendencyComponentComposite.__call__", "sympl/_core/util.py:update_dict_by_adding_another"]}
{"id": "C19", "title": "Composite output does not depend on component order", "statement": "Permuting the components of a tendency composite changes neither the set of tendency quantities nor their physical values.", "quantifier": "all permutations of all component lists", "why_tests_cant": "n! orders for unbounded n.", "anchors": ["sympl/_core/composite.py:TendencyComponentComposite.__call__"]}
{"id": "C20", "title": "Composites never silently overwrite a diagnostic", "statement": "Constructing a composite raises SharedKeyError iff two components declare the same diagnostic; when it succeeds every component diagnostic appears unchanged in the result; a diagnostic composite call also raises SharedKeyError iff returned keys overlap.", "quantifier": "all component lists", "why_tests_cant": "Unbounded number of components.", "anchors": ["sympl/_core/composite.py:DiagnosticPropertiesCompositeMixin", "sympl/_core/composite.py:DiagnosticComponentComposite.__call__", "sympl/_core/util.py:ensure_no_shared_keys"]}
{"id": "C21", "title": "Combined properties cover all components", "statement": "combine_properties returns every quantity of every dictionary once, in first-seen order, with the first-seen units, all other units being compatible with it; it raises InvalidPropertyDictError iff units are incompatible, dims cannot be determined, or dims cannot be combined.", "quantifier": "any number of property dictionaries", "why_tests_cant": "Fold over unboundedly many dictionaries.", "anchors": ["sympl/_core/combine_properties.py:combine_properties"]}
{"id": "C22", "title": "Combined dims satisfy both specifications, symmetrically", "statement": "combine_dims(d1, d2) returns dims such that a quantity fitting the result fits both d1 and d2, raises only if no such spec exists, and does not depend on argument order (as a set). (Violated by shared_dims = dims2 & dims2: (['*','z'],['x']) is accepted, (['x','y'],['*','x']) is refused while the swapped call succeeds.)", "quantifier": "all pairs of dims specifications, every set iteration order", "why_tests_cant": "All pairs of specs.", "anchors": ["sympl/_core/combine_properties.py:combine_dims"]}
{"id": "C23", "title": "Composites never modify arrays owned by components", "statement": "Running a tendency composite leaves unchanged all arrays that existed before the call or were returned by its components: sums are accumulated in fresh copies.", "quantifier": "all component lists, all aliasing patterns among returned arrays", "why_tests_cant": "Aliasing patterns are unbounded.", "anchors": ["sympl/_core/util.py:update_dict_by_adding_another", "sympl/_core/composite.py:ImplicitTendencyComponentComposite.__call__"]}
{"id": "C24", "title": "Adams-Bashforth applies the textbook formula at every step of every run", "statement": "On the n-th call with constant timestep, each stepped quantity becomes x + dt * sum_j b_j T_{n-j} with the Adams-Bashforth coefficients of order min(order, n), T being the tendencies computed at the last calls.", "quantifier": "all orders 1-4, all run lengths, all tendency functions, all initial states", "why_tests_cant": "Run length and histories are unbounded.", "anchors": ["sympl/_components/timesteppers.py:AdamsBashforth", "sympl/_components/timesteppers.py:second_bashforth", "sympl/_components/timesteppers.py:third_bashforth", "sympl/_components/timesteppers.py:fourth_bashforth"]}
{"id": "C25", "title": "Adams-Bashforth of order k integrates polynomials of degree < k exactly", "statement": "Once k tendencies are available, if the tendency is a polynomial of degree < k in time then each step adds the exact integral of the tendency over the step.", "quantifier": "all polynomials of degree < k, all step sizes and times, k = 1..4", "why_tests_cant": "Real-valued coefficients, step sizes and times.", "anchors": ["sympl/_components/timesteppers.py:AdamsBashforth._perform_step"]}
{"id": "C26", "title": "Multi-step steppers refuse a changed timestep and keep bounded history", "statement": "After the first call AdamsBashforth and Leapfrog raise ValueError for any different timestep and are otherwise unaffected by the refused call; over any run of successful calls the stored history never exceeds order-1 tendency sets.", "quantifier": "all call sequences", "why_tests_cant": "History property.", "anchors": ["sympl/_components/timesteppers.py:AdamsBashforth._ensure_constant_timestep", "sympl/_components/timesteppers.py:Leapfrog._ensure_constant_timestep"]}
{"id": "C27", "title": "A failed Adams-Bashforth step leaves the stepper as it was", "statement": "If a call raises, a later retry behaves as if the failed call had not happened. (Violated: tendencies are appended before the step; after a failure at full history the stored list is never trimmed again and grows without bound.)", "quantifier": "all failure points and call histories", "why_tests_cant": "Failure at arbitrary points of arbitrary histories.", "anchors": ["sympl/_components/timesteppers.py:AdamsBashforth._call"]}
{"id": "C28", "title": "Leapfrog applies Euler then filtered leapfrog steps", "statement": "The first call is a forward Euler step; each later call computes x_{n+1} = x_{n-1} + 2 dt T_n with the Robert-Asselin-Williams filter of strength nu and parameter alpha applied to x_n (in the input state) and x_{n+1}, where x_{n-1} is the filtered previous state.", "quantifier": "all runs, nu, alpha, tendency functions", "why_tests_cant": "Unbounded runs, real parameters.", "anchors": ["sympl/_components/timesteppers.py:Leapfrog._call", "sympl/_components/timesteppers.py:step_leapfrog"]}
{"id": "C29", "title": "The Leapfrog filter conserves the three-point mean at alpha=0.5 and leaves x_{n+1} alone at alpha=1", "statement": "For alpha=1/2 (default) x_{n-1}+x_n+x_{n+1} is the same before and after filtering; for alpha=1 x_{n+1} is not modified; for asselin_strength 0 nothing is.", "quantifier": "all values, strengths and steps", "why_tests_cant": "Real-valued quantifier.", "anchors": ["sympl/_components/timesteppers.py:step_leapfrog"]}
{"id": "C30", "title": "SSPRungeKutta implements the Shu-Osher schemes", "statement": "With E the forward Euler map of the given tendencies, one 3-stage call returns x/3 + 2/3 E(3/4 x + 1/4 E(E(x))) and one 2-stage call (x + E(E(x)))/2 for each stepped quantity.", "quantifier": "all tendency functions, states and timesteps", "why_tests_cant": "Arbitrary tendency functions.", "anchors": ["sympl/_components/timesteppers.py:SSPRungeKutta", "sympl/_core/state.py:add", "sympl/_core/state.py:multiply"]}
{"id": "C31", "title": "SSPRungeKutta preserves every bound that forward Euler preserves", "statement": "If forward Euler with this timestep maps states within a convex set (e.g. lower/upper bounds per quantity) into it, so does SSPRungeKutta.", "quantifier": "all convex sets, all tendency functions", "why_tests_cant": "Universally quantified sets and functions.", "anchors": ["sympl/_components/timesteppers.py:SSPRungeKutta"]}
{"id": "C32", "title": "Time steppers keep untouched quantities and time", "statement": "The new state of every stepper has every key of the input state; 'time' and quantities without a tendency keep their value. (For SSPRungeKutta this holds in exact arithmetic only; in binary64 x/3+2x/3 may differ from x.)", "quantifier": "all states, all components, all steppers", "why_tests_cant": "All states.", "anchors": ["sympl/_core/state.py:copy_untouched_quantities", "sympl/_core/tendencystepper.py:TendencyStepper.__call__", "sympl/_components/timesteppers.py:SSPRungeKutta"]}
{"id": "C33", "title": "Stepped quantities keep their units and dims", "statement": "Each stepped quantity of the new state has the attrs (units) of the input state's quantity, and its dims in the same order followed only by dims present solely in the tendency; tendencies are converted to the state's units per second before use.", "quantifier": "all states and tendencies", "why_tests_cant": "All layouts and units.", "anchors": ["sympl/_components/timesteppers.py:convert_tendencies_units_for_state", "sympl/_core/dataarray.py:DataArray.__add__"]}
{"id": "C34", "title": "Results do not depend on the units the state is expressed in", "statement": "Expressing a state quantity in another unit (scale factor) and running any number of steps gives physically equal results, as long as the units are not changed between calls. (Changing units between calls of one multi-step stepper silently mixes units.)", "quantifier": "all unit changes by scale factor, all runs", "why_tests_cant": "Relates two runs.", "anchors": ["sympl/_components/timesteppers.py:AdamsBashforth", "sympl/_components/timesteppers.py:Leapfrog"]}
{"id": "C35", "title": "Stepper tendency diagnostics equal the finite difference", "statement": "With tendencies_in_diagnostics=True a time stepper returns X_tendency_from_<name> = (new-old)/dt in <units> s^-1, RuntimeError on a name clash; for order-1 Adams-Bashforth this equals the summed tendency.", "quantifier": "all states, nonzero timesteps, components", "why_tests_cant": "All values and timesteps.", "anchors": ["sympl/_core/tendencystepper.py:TendencyStepper._insert_tendencies_to_diagnostics"]}
{"id": "C36", "title": "All schemes conserve linear invariants and steady states", "statement": "If a weighted sum of quantities/grid points has zero tendency at all states then every scheme (AdamsBashforth 1-4, SSPRungeKutta 2/3, Leapfrog) keeps it constant over any run; with zero tendencies the state never changes.", "quantifier": "all weights, all runs, all tendency functions with the invariant", "why_tests_cant": "Unbounded runs.", "anchors": ["sympl/_components/timesteppers.py:AdamsBashforth", "sympl/_components/timesteppers.py:Leapfrog", "sympl/_components/timesteppers.py:SSPRungeKutta"]}
{"id": "C37", "title": "AdamsBashforth and SSPRungeKutta do not modify the input state; Leapfrog only by its filter", "statement": "After a call the arrays of the input state hold what they held before (AdamsBashforth, SSPRungeKutta); for Leapfrog only arrays of stepped quantities change, to the filtered values.", "quantifier": "all states, all aliasing among state arrays", "why_tests_cant": "Aliasing patterns.", "anchors": ["sympl/_components/timesteppers.py:AdamsBashforth._call", "sympl/_components/timesteppers.py:Leapfrog._call"]}
{"id": "C38", "title": "SSPRungeKutta accepts any timestep on each call", "statement": "Being a one-step method SSPRungeKutta can be called with a different timestep each time. (Violated: the internal Euler stepper raises ValueError for any timestep other than the first.)", "quantifier": "all call histories", "why_tests_cant": "History property.", "anchors": ["sympl/_components/timesteppers.py:SSPRungeKutta.__init__", "sympl/_components/timesteppers.py:AdamsBashforth._ensure_constant_timestep"]}
{"id": "C39", "title": "Newtonian relaxation moves monotonically towards equilibrium", "statement": "RelaxationTendencyComponent returns (equilibrium - x)/tau at each point; an Euler step with 0 <= dt <= tau keeps x between its old value and the equilibrium.", "quantifier": "all values, tau > 0, dt", "why_tests_cant": "Real-valued quantifier.", "anchors": ["sympl/_components/basic.py:RelaxationTendencyComponent"]}
{"id": "C40", "title": "TimeDifferencingWrapper inverts a Stepper", "statement": "The tendencies it returns are (new - old)/dt in the declared units, so that old + dt * tendency reproduces the wrapped stepper's output; diagnostics are passed through.", "quantifier": "all steppers, states, nonzero timesteps", "why_tests_cant": "All values.", "anchors": ["sympl/_components/basic.py:TimeDifferencingWrapper"]}
{"id": "C41", "title": "UpdateFrequencyWrapper recomputes exactly when due", "statement": "In any call sequence the wrapped component is invoked iff it is the first call or state time >= last update time + interval; otherwise the output of the last update is returned; an exception in the component leaves cache and update time unchanged.", "quantifier": "all call histories, times and intervals", "why_tests_cant": "History property.", "anchors": ["sympl/_core/wrappers.py:UpdateFrequencyWrapper"]}
{"id": "C42", "title": "ScalingWrapper scales exactly the requested quantities", "statement": "The component sees exactly its declared inputs (and time) with scaled ones multiplied by the factor and attrs kept; each requested output is the component's output times its factor and everything else is unchanged; a factor for an undeclared quantity is refused at construction with ValueError.", "quantifier": "all components, factors, states", "why_tests_cant": "All dictionaries and factors.", "anchors": ["sympl/_core/wrappers.py:ScalingWrapper"]}
{"id": "C43", "title": "ScalingWrapper works with tracer components", "statement": "Wrapping a component with uses_tracers passes the tracers through. (Violated: only declared inputs are forwarded, so packing registered tracers raises KeyError.)", "quantifier": "all tracer components", "why_tests_cant": "Feature interaction.", "anchors": ["sympl/_core/wrappers.py:ScalingWrapper.__call__", "sympl/_core/tracers.py:TracerPacker.pack"]}
{"id": "C44", "title": "Repeated scaled calls give the same answer", "statement": "Calling a ScalingWrapper repeatedly on the same state returns the same result and does not change data owned by the component or the input state. (Violated by the in-place *= when the component returns stored or input arrays, e.g. ConstantTendencyComponent.)", "quantifier": "all call histories and aliasing patterns", "why_tests_cant": "Needs mutation through aliases over repeated calls.", "anchors": ["sympl/_core/wrappers.py:ScalingWrapper.__call__", "sympl/_components/basic.py:ConstantTendencyComponent.array_call"]}
{"id": "C45", "title": "Tracer packing and unpacking are inverse", "statement": "unpack(pack(state)) returns exactly the tracers, each with its units, and named values equal to the state's converted values; tracer i of the packed array is the i-th of prepended tracers followed by registered ones in registration order, each once.", "quantifier": "all sets of tracers with distinct prepended names, all tracer_dims listing 'tracer' once, all states", "why_tests_cant": "Any number of tracers, any position of the tracer axis.", "anchors": ["sympl/_core/tracers.py:TracerPacker.pack", "sympl/_core/tracers.py:TracerPacker.unpack", "sympl/_core/tracers.py:TracerPacker.tracer_names"]}
{"id": "C46", "title": "The tracer registry stays consistent over every history", "statement": "After any sequence of register/reset/packer creations, the registered names are exactly the keys of the unit dictionary, a name is never re-registered with different units, and no live packer's component declares a registered tracer as an output unless the registering call raised.", "quantifier": "all operation sequences including ones with exceptions", "why_tests_cant": "Global mutable state over unbounded histories.", "anchors": ["sympl/_core/tracers.py:register_tracer", "sympl/_core/tracers.py:TracerPacker.__init__", "sympl/_core/tracers.py:reset_tracers"]}
{"id": "C47", "title": "A refused tracer registration has no effect", "statement": "If register_tracer raises, the registry is unchanged. (Violated: a conflict with an existing component is detected after the tracer has been recorded; re-registering a tracer lists its name twice.)", "quantifier": "all registration histories", "why_tests_cant": "Exception in the middle of a history.", "anchors": ["sympl/_core/tracers.py:register_tracer"]}
{"id": "C48", "title": "Initialised tracer arrays match packed tracer arrays", "statement": "The 'tracers' array made by initialize_numpy_arrays_with_properties has the shape of the packed tracer array when no tracer is listed twice. (Violated when a tracer is registered twice or both registered and prepended.)", "quantifier": "all tracer sets and dims", "why_tests_cant": "Depends on the registration history.", "anchors": ["sympl/_core/init_np_arrays.py:initialize_numpy_arrays_with_properties", "sympl/_core/tracers.py:TracerPacker.tracer_names"]}
{"id": "C49", "title": "Constants: last write wins, through any alias, and nothing else changes", "statement": "After set_constant(n, v, u), get_constant(m, u) is v for every m resolving to the same constant, and constants resolving elsewhere keep their value.", "quantifier": "all histories of set/get/set_condensible_name/reset", "why_tests_cant": "Unbounded histories over global state.", "anchors": ["sympl/_core/constants.py:set_constant", "sympl/_core/constants.py:get_constant", "sympl/_core/constants.py:get_alias", "sympl/_core/constants.py:ConstantDict"]}
{"id": "C50", "title": "Constant alias resolution always terminates without error", "statement": "For every history of set_condensible_name with names other than 'phase', every constant name resolves in at most two alias hops; the name 'phase' creates a self-alias and lookups raise RuntimeError.", "quantifier": "all histories, all condensible names, all constant names", "why_tests_cant": "All strings.", "anchors": ["sympl/_core/constants.py:get_alias", "sympl/_core/constants.py:get_condensible_map", "sympl/_core/constants.py:set_condensible_name"]}
{"id": "C51", "title": "reset_constants restores the initial library from any state", "statement": "After any history, reset_constants makes every lookup behave as at import.", "quantifier": "all histories", "why_tests_cant": "Unbounded histories.", "anchors": ["sympl/_core/constants.py:reset_constants"]}
{"id": "C52", "title": "Listing constants terminates and lists exactly the resolvable names", "statement": "keys()/items() of the constants dictionary terminate for every alias table and contain exactly stored names and names whose alias chain reaches a stored name, with that value.", "quantifier": "all alias tables and stored constants, including cyclic tables", "why_tests_cant": "The loop's own iteration bound is never incremented; termination needs a measure.", "anchors": ["sympl/_core/constants.py:ConstantDict._proxy_dict"]}
{"id": "C53", "title": "NetCDFMonitor writes every stored state once, in order of time per batch", "statement": "For any sequence of store/write calls that do not raise, the file holds the concatenation over writes of the cached states sorted by time; states stored for the same time between writes are merged with later values winning; nothing is lost or duplicated.", "quantifier": "all operation sequences", "why_tests_cant": "Refinement over histories.", "anchors": ["sympl/_components/netcdf.py:NetCDFMonitor.store", "sympl/_components/netcdf.py:NetCDFMonitor.write", "sympl/_components/netcdf.py:combine_states"]}
{"id": "C54", "title": "A failed NetCDF write leaves the file unchanged and the cache intact", "statement": "If write() raises, the file holds what it held before and a later write can succeed. (Holds for inconsistent quantities; violated when a variable turns out incompatible after the times were appended, and write() with nothing cached raises ValueError.)", "quantifier": "all failure points", "why_tests_cant": "Failure points in arbitrary histories.", "anchors": ["sympl/_components/netcdf.py:NetCDFMonitor.write", "sympl/_components/netcdf.py:append_times_to_dataset"]}
{"id": "C55", "title": "RestartMonitor never loses the last complete restart, whatever the crash point", "statement": "If the process dies at any point during store(), a complete restart (old or new) exists in <file>, <file>.old or <file>.new; after an uninterrupted store, <file> is the new state and no .old/.new remains. <file> itself can be missing between the two renames, and a left-over .new makes later store() calls raise IOError.", "quantifier": "all crash points of all sequences of stores", "why_tests_cant": "Crash points.", "anchors": ["sympl/_components/netcdf.py:RestartMonitor.store"]}
{"id": "C56", "title": "RestartMonitor load returns what store wrote", "statement": "After store(state) returns, load() returns the same quantities with the same dims, attrs and values and the same time.", "quantifier": "all states of non-scalar quantities", "why_tests_cant": "Round trip for all states.", "anchors": ["sympl/_components/netcdf.py:RestartMonitor.load", "sympl/_components/netcdf.py:RestartMonitor.store"]}
{"id": "C57", "title": "NetCDF aliasing renames without losing data", "statement": "Storing with aliases keeps one cached variable per state variable with the same data under the replaced name. (Violated when two names map to the same alias, or an alias rewrites 'time'.)", "quantifier": "all alias tables and states", "why_tests_cant": "All strings.", "anchors": ["sympl/_components/netcdf.py:NetCDFMonitor.store"]}
{"id": "C58", "title": "MonitorComposite stores to each monitor once, in order", "statement": "store(state) calls store(state) on each monitor exactly once in list order, stopping at the first exception, which is propagated.", "quantifier": "any number of monitors", "why_tests_cant": "Unbounded list.", "anchors": ["sympl/_core/composite.py:MonitorComposite.store"]}
{"id": "C59", "title": "get_numpy_array and restore_dimensions are inverse", "statement": "For any data array and out_dims accepted by get_numpy_array, restore_dimensions of the result gives back the original dims order and values.", "quantifier": "all arrays and dims", "why_tests_cant": "All layouts.", "anchors": ["sympl/_core/util.py:get_numpy_array", "sympl/_core/util.py:restore_dimensions"]}
{"id": "C60", "title": "Alias lookup priority", "statement": "get_component_aliases returns for each quantity an alias declared by some component, taken from input properties if any, else output, else diagnostic, else tendency.", "quantifier": "all component lists", "why_tests_cant": "Unbounded lists.", "anchors": ["sympl/_core/util.py:get_component_aliases"]}
{"id": "C61", "title": "Duck-typed component classification is unambiguous", "statement": "An object that does not inherit from a component base class is recognised as at most one of Stepper, DiagnosticComponent and the two tendency kinds; as both tendency kinds only if its timestep argument is optional.", "quantifier": "all attribute sets and call signatures", "why_tests_cant": "All combinations of attributes.", "anchors": ["sympl/_core/base_components.py:ComponentMeta.__instancecheck__"]}
{"id": "C62", "title": "Calendar selection", "statement": "datetime(..., calendar=c) returns a datetime in the calendar named by c (case-insensitively) for every documented calendar, and raises for anything else. (Violated: an unknown calendar returns None.)", "quantifier": "all calendar strings and tz/availability combinations", "why_tests_cant": "All strings.", "anchors": ["sympl/_core/time.py:datetime"]}
{"id": "C63", "title": "same_list compares as multisets", "statement": "same_list(a, b) is True iff a is a reordering of b. (Holds for duplicate-free lists, as used by the monitors; violated with duplicates.)", "quantifier": "all pairs of lists", "why_tests_cant": "All lists.", "anchors": ["sympl/_core/util.py:same_list"]}
{"id": "C64", "title": "Constant components return what they were given", "statement": "ConstantTendencyComponent and ConstantDiagnosticComponent return, on any state with a time, exactly the given values on the given dims and in the given units, under the given names; construction fails with KeyError if an array has no units.", "quantifier": "all arrays, names and states", "why_tests_cant": "All states and arrays, including arrays that disagree about dimension lengths.", "anchors": ["sympl/_components/basic.py:ConstantTendencyComponent", "sympl/_components/basic.py:ConstantDiagnosticComponent"]}
{"id": "C65", "title": "Packed tracers line up with the other inputs", "statement": "When a component's inputs and its tracers both use '*', the same position along '*' in the raw inputs and in the packed tracers is the same point of the grid. (Violated: the two are flattened separately, each in the order in which its own quantities list the dims.)", "quantifier": "all states, properties and tracer_dims", "why_tests_cant": "Depends on the dims order of every quantity involved; wrong columns raise no error.", "anchors": ["sympl/_core/tracers.py:TracerPacker.pack", "sympl/_core/base_components.py:TendencyComponent.__call__", "sympl/_core/get_np_arrays.py:get_numpy_arrays_with_properties"]}
{"id": "C66", "title": "get_constants_string lists every constant once, with its current value and units", "statement": "After any history of set_constant, set_condensible_name and reset_constants, get_constants_string() returns a text with one line for every name that can be looked up, giving its current number and units.", "quantifier": "all histories", "why_tests_cant": "Unbounded histories over global state; the categories are fixed while the aliases change.", "anchors": ["sympl/_core/constants.py:get_constants_string", "sympl/_core/constants.py:ConstantDict._repr", "sympl/_core/constants.py:constant_names_by_category"]}
{"id": "C67", "title": "A stored state is written as it was when it was stored", "statement": "What store(state) adds to a NetCDFMonitor's file is the state as it was at the call, whatever the program does to its arrays before write(). (Holds with write_on_store, or if the arrays are left alone until the write; violated otherwise: states are cached by reference.)", "quantifier": "all programs of stores, writes and in-place changes of arrays", "why_tests_cant": "Depends on the interleaving of in-place updates with stores and writes.", "anchors": ["sympl/_components/netcdf.py:NetCDFMonitor.store", "sympl/_components/netcdf.py:NetCDFMonitor.write"]}
{"id": "C68", "title": "Wrapping a component keeps its kind", "statement": "A ScalingWrapper or UpdateFrequencyWrapper around a component, nested to any depth, counts as the kind of component it wraps (so composites and steppers accept it in its place), and calling it as that kind is called calls the wrapped component with the timestep if it takes one. (Holds except for a ScalingWrapper around another wrapper around an implicit tendency component, for which every call raises TypeError.)", "quantifier": "all components and nestings of wrappers", "why_tests_cant": "Unbounded nesting and all attribute sets; the kinds are recognised by attributes and call signatures.", "anchors": ["sympl/_core/wrappers.py:ScalingWrapper.__call__", "sympl/_core/wrappers.py:UpdateFrequencyWrapper.__call__", "sympl/_core/base_components.py:ComponentMeta.__instancecheck__"]}
{"id": "C69", "title": "Only array_call can write to arrays the caller holds", "statement": "Calling a component of a base class (TendencyComponent, ImplicitTendencyComponent, DiagnosticComponent, Stepper) changes no array that existed before the call, except what the component's own array_call writes to; array_call is given views of the state's arrays or new arrays. In particular the state is as it was after the call. (The first part holds; the last is violated when array_call updates its input in place, and a Stepper that does so reports zero tendencies.)", "quantifier": "all components, states and array_call programs, including those that write to their inputs; all choices numpy makes between copy and view", "why_tests_cant": "Which arrays share memory depends on dims order, units, broadcasting and numpy's choice between view and copy; every array_call program is possible.", "anchors": ["sympl/_core/base_components.py:TendencyComponent.__call__", "sympl/_core/base_components.py:Stepper.__call__", "sympl/_core/base_components.py:DiagnosticComponent.__call__", "sympl/_core/get_np_arrays.py:get_numpy_array", "sympl/_core/restore_dataarray.py:restore_data_arrays_with_properties"]}
{"id": "C70", "title": "Which arrays of a call share memory", "statement": "array_call is given a view of the state's array exactly for quantities that are in the wanted units and need no broadcasting (and no copying reshape), element for element at the same grid point, and new memory otherwise; packed tracers are new memory. The DataArrays a call returns are the very memory array_call returned, except where a '*' has to be expanded by a copy; the tendencies a tendency component adds to its diagnostics are the tendency arrays themselves, those of a Stepper are new. (So 'what is returned can be changed safely' is violated.)", "quantifier": "all components, states and array_call programs; all choices numpy makes between copy and view", "why_tests_cant": "Sharing is invisible in values; it shows only when someone later writes, for particular combinations of dims and units.", "anchors": ["sympl/_core/get_np_arrays.py:get_numpy_array", "sympl/_core/get_np_arrays.py:get_numpy_arrays_with_properties", "sympl/_core/restore_dataarray.py:restore_data_arrays_with_properties", "sympl/_core/base_components.py:TendencyComponent._insert_tendencies_to_diagnostics", "sympl/_core/base_components.py:Stepper._insert_tendencies_to_diagnostics"]}
{"id": "C71", "title": "Sharing memory never changes what a call computes", "statement": "If array_call computes its results without writing to existing arrays, the call returns what it would return if every array were copied, whatever arrays share memory; and such components can be used in composites and time steppers with the memory guarantees those give.", "quantifier": "all components, states, array_call programs and sharing between arrays", "why_tests_cant": "Quantifies over all programs and all ways arrays may overlap in memory.", "anchors": ["sympl/_core/base_components.py:TendencyComponent.__call__", "sympl/_core/base_components.py:ImplicitTendencyComponent.__call__", "sympl/_core/base_components.py:Stepper.__call__", "sympl/_core/base_components.py:DiagnosticComponent.__call__"]}
{"id": "C72", "title": "Plotting cannot change the model", "statement": "PlotFunctionMonitor.store calls the plot function once with a clear figure and a deep copy of the state; whatever the plot function does to the arrays it is given, then or in later calls, no array of the model changes. If it raises, store raises the same and draws nothing. An interactive monitor has a single figure from its creation on, cleared and drawn by each store; any other makes, draws and shows a new figure at each store.", "quantifier": "all plot functions that write only to what they were given or made, all states and all sequences of stores", "why_tests_cant": "Quantifies over all plot functions and histories; a shallow copy would pass every test whose plot function only reads.", "anchors": ["sympl/_components/plot.py:PlotFunctionMonitor.store", "sympl/_components/plot.py:copy_state"]}
{"id": "C73", "title": "Calls work with any state backend", "statement": "A component call touches the quantities of a state only through the backend in use: array_call gets what get_array returns for the declared units and the declared dims ('*' standing for the dims the backend reports beyond the declared ones), flattened where '*' is declared, and the time of the state; what is returned are the quantities create_quantity makes, from the arrays array_call returned, in the declared units and dims. With the default backend this is the call on DataArrays. With any backend whose containers stand for DataArrays (same dims and shape, same arrays from get_array) a call does the same, raises the same and returns containers that stand for what the call on DataArrays returns. set_backend rejects what is no StateBackend and then keeps the backend.", "quantifier": "all backends (whose methods keep no data), all components with and without tracers, all states and array_calls", "why_tests_cant": "Quantifies over all container types and implementations of the backend interface.", "anchors": ["sympl/_core/backend.py:StateBackend", "sympl/_core/backend.py:DataArrayBackend", "sympl/_core/backend.py:set_backend", "sympl/_core/wildcard.py:get_wildcard_matches_and_dim_lengths", "sympl/_core/get_np_arrays.py:get_numpy_arrays_with_properties", "sympl/_core/restore_dataarray.py:restore_data_arrays_with_properties", "sympl/_core/base_components.py:TendencyComponent.__call__"]}
{"id": "C74", "title": "A column component may be called on any set of columns", "statement": "If array_call works column by column along '*' (each column of its outputs depends on the time and on that column of its inputs only), then so does the component on states: two calls on any two states, with any dims in any order, agree in any two columns in which the inputs agree in the declared units. So the order in which the state stores its dims does not matter, nor does it matter whether a column is alone or one of many. For any array_call, the stored order is invisible whenever '*' stands for the same dims in the same order, as it does with at most one undeclared dim.", "quantifier": "all components without a tracer packer, all array_calls, all pairs of states and of columns ('*' matching no dim that is declared by name); diagnostics when the component does not add tendencies to them", "why_tests_cant": "Relates calls on different states over all grids and layouts; mixed-up columns give plausible numbers of the right shape.", "anchors": ["sympl/_core/get_np_arrays.py:get_numpy_arrays_with_properties", "sympl/_core/restore_dataarray.py:restore_data_arrays_with_properties", "sympl/_core/wildcard.py:flatten_wildcard_dims", "sympl/_core/wildcard.py:fill_dims_wildcard", "sympl/_core/base_components.py:TendencyComponent.__call__", "sympl/_core/base_components.py:Stepper.__call__", "sympl/_core/base_components.py:DiagnosticComponent.__call__"]}
{"id": "C75", "title": "A new state can replace the state in the main loop", "statement": "The new state returned by a stepper has every quantity of the state it was called with, so that a main loop may go on from it as the documentation shows. This holds of AdamsBashforth, SSPRungeKutta and Leapfrog. It is false of a Stepper: its new state has its declared outputs and its tracers and nothing else, not even the time, so that no component can be called with it, and the main loop of the quickstart raises in its second pass unless the Stepper outputs everything the physics needs. If it outputs all quantities of the initial state none is ever missing.", "quantifier": "all steppers, components, states, timesteps and numbers of passes of the main loop", "why_tests_cant": "About every later pass of a loop over arbitrary components; one call of a Stepper looks correct.", "anchors": ["sympl/_core/base_components.py:Stepper.__call__", "sympl/_core/tendencystepper.py:TendencyStepper", "sympl/_core/restore_dataarray.py:restore_data_arrays_with_properties", "docs/quickstart.rst", "docs/timestepping.rst"]}
{"id": "C76", "title": "The clock of the main loop and what it stores", "statement": "In the documented main loop, the state stored in pass k has the time t0 + k dt, in each pass the steppers are called in turn with what the one before returned, what is stored is the state at the start of the pass together with the diagnostics of that pass, and the next pass starts from the last new state. With a positive timestep the loop makes exactly the passes that start before the end time; with another timestep it never returns. What every stepper preserves holds at the start of every pass.", "quantifier": "all lists of steppers (that do not name a diagnostic 'time'), monitors, states, timesteps, end times and numbers of passes", "why_tests_cant": "An induction over any number of passes with arbitrary steppers and monitors, including ones that raise.", "anchors": ["docs/quickstart.rst", "docs/timestepping.rst", "sympl/_core/tendencystepper.py:TendencyStepper.__call__", "sympl/_core/base_components.py:Stepper.__call__"]}
{"id": "C77", "title": "A composite of composites behaves as the composite of its components", "statement": "Composites are components, so they can be put into other composites. However they are nested, calling a TendencyComponentComposite, an ImplicitTendencyComponentComposite or a DiagnosticComponentComposite gives the same as calling the composite of the components themselves in the same order: it returns or raises in the same cases, with the same tendencies, units and diagnostics, and its declared inputs, tendencies and diagnostics are the same.", "quantifier": "all trees of composites of any depth and width, all components (with any internal state), states, timesteps, declared properties", "why_tests_cant": "Tests nest one composite in another at most; that sums of sums in mixed units and dims agree, and that no declaration is accepted in one grouping only, concerns every tree.", "anchors": ["sympl/_core/composite.py:TendencyComponentComposite", "sympl/_core/composite.py:ImplicitTendencyComponentComposite", "sympl/_core/composite.py:DiagnosticComponentComposite", "sympl/_core/combine_properties.py:combine_properties", "sympl/_core/combine_properties.py:combine_dims", "sympl/_core/util.py:update_dict_by_adding_another", "sympl/_core/util.py:ensure_no_shared_keys"]}
{"id": "C78", "title": "A run can be ended, stored and resumed", "statement": "If a run of the documented main loop is ended, its last state stored with RestartMonitor, loaded by another program and continued there with new stepper objects, the monitor gets the same states, and the run ends in the same way (the same last state, or an exception), as in one uninterrupted run. This holds of AdamsBashforth of order 1, of SSPRungeKutta and of Steppers, whose objects keep nothing that matters. It is false of AdamsBashforth of higher order and of Leapfrog, whose first step after the restart is one of forward Euler, and of UpdateFrequencyWrapper, which calls its component at once: what they remember is not part of the state.", "quantifier": "all lists of steppers, components, states, timesteps, times of the interruption, numbers of passes, and file contents", "why_tests_cant": "Compares two runs of any length, with exceptions at any point, across a file; that an object keeps nothing that matters is about all its histories.", "anchors": ["sympl/_core/tendencystepper.py:TendencyStepper.__call__", "sympl/_components/timesteppers.py:AdamsBashforth", "sympl/_components/timesteppers.py:SSPRungeKutta", "sympl/_components/timesteppers.py:Leapfrog", "sympl/_core/wrappers.py:UpdateFrequencyWrapper", "sympl/_components/netcdf.py:RestartMonitor", "docs/quickstart.rst"]}
{"id": "C79", "title": "Tracers are returned, in the right units, and stepped", "statement": "A component that uses tracers must return them: a call whose array_call returns no 'tracers', or fewer than there are, raises. Each tracer comes back as a quantity of its own, in its units times the component's tracer_tendency_time_unit, and the first step of an AdamsBashforth of any order changes it, at each point, by the timestep times the number array_call returned for that tracer at that point, converted to the units in which the state holds it. The documentation also says that the array has to have the shape of the one given, and that a time unit of 's' gives tendencies per second; both are false: further slices are dropped without notice, and with 's' the units of a tracer in g are 'g s'.", "quantifier": "all components, tracer registries, packers, states, array_calls, orders and timesteps", "why_tests_cant": "Ranges over all numbers of tracers, grids, orders of dimensions and units; a test fixes one registry and one grid.", "anchors": ["sympl/_core/tracers.py:TracerPacker", "sympl/_core/base_components.py:TendencyComponent.__call__", "sympl/_core/base_components.py:Stepper.__call__", "sympl/_components/timesteppers.py:AdamsBashforth", "docs/writing_components.rst"]}
{"id": "C80", "title": "The main loop with Leapfrog: each state is filtered once, before it is stored", "statement": "In the documented main loop with a Leapfrog object as its first process, any others after it, and any monitor: the first pass is a forward Euler step that leaves the state's values as they are. Every later pass takes the tendencies of the state that the loop has, unfiltered; steps over two timesteps from the filtered state of the pass before; and filters the state it was given, once, so that this is what the monitor gets, with the diagnostics of the pass. The next pass starts from what the last process returned, one timestep later. The state the loop ends with has not been filtered. Stored times are the initial time plus multiples of the timestep, the loop ends, no quantity is lost, and a run continued with the same objects gives the monitor the same states as a single run.", "quantifier": "all numbers of passes, filter strengths, components, further processes that keep states well-formed, monitors, stop times, timesteps and states", "why_tests_cant": "The filter changes a state after it was returned and before it is stored, in every pass; a test sees one or two calls, and never a loop.", "anchors": ["sympl/_components/timesteppers.py:Leapfrog", "sympl/_components/timesteppers.py:step_leapfrog", "docs/quickstart.rst", "docs/timestepping.rst"]}
{"id": "C81", "title": "What a failed step leaves behind", "statement": "A stepper call that raises can be repeated as if it had not been made. This is so for SSPRungeKutta and AdamsBashforth of order one (with any number of calls of one timestep before), and for a Leapfrog object without tendencies in its diagnostics; a call refused for its timestep changes nothing at all. It is not so for the state given to Leapfrog, some quantities of which may have been filtered, nor for AdamsBashforth of higher order, which may remember the tendencies of the failed call; and SSPRungeKutta then keeps tendencies without bound. For each stepper it is stated exactly what can have changed.", "quantifier": "all steppers, components, states, timesteps, and all histories of calls whatever their outcomes", "why_tests_cant": "Ranges over every point at which a call can raise and all earlier calls; tests do not call a stepper again after an exception.", "anchors": ["sympl/_components/timesteppers.py:Leapfrog", "sympl/_components/timesteppers.py:step_leapfrog", "sympl/_components/timesteppers.py:SSPRungeKutta", "sympl/_components/timesteppers.py:AdamsBashforth", "sympl/_core/tendencystepper.py:TendencyStepper.__call__"]}
{"id": "C82", "title": "Quantities that no component reads do not matter", "statement": "Adding, removing or changing quantities that no component reads or changes has no effect on a model: Steppers, AdamsBashforth, SSPRungeKutta and Leapfrog return the same diagnostics and the same new values of all other quantities and raise the same exceptions, over any history of calls, and a main loop passes its monitor states that agree on all other quantities and ends in the same way. SSPRungeKutta needs the condition that the state holds no datetime besides 'time': it multiplies every quantity of the state and raises on a second datetime.", "quantifier": "all components, steppers and configurations, all pairs of histories or runs whose states agree on the quantities used, including calls that raise", "why_tests_cant": "Tests compare one state with itself; that nothing else in the state can matter is a statement about all pairs of states and all histories.", "anchors": ["sympl/_components/timesteppers.py:AdamsBashforth", "sympl/_components/timesteppers.py:SSPRungeKutta", "sympl/_components/timesteppers.py:Leapfrog", "sympl/_core/state.py:add", "sympl/_core/state.py:multiply", "sympl/_core/tendencystepper.py:TendencyStepper.__call__"]}
{"id": "C83", "title": "A state with the declared inputs of a composite or stepper is accepted by its components", "statement": "If a state has every quantity in the input_properties of a composite or a time stepper, in convertible units, without undeclared dims and with consistent lengths, then no component inside refuses it: each component's array_call is run (tracers included). This needs two conditions: declarations without '*' name every dim that other components name for the same quantity, and no component lists a dimension twice once '*' is replaced. Without the first condition there is always a state that has all declared inputs and is refused.", "quantifier": "all lists of components, with or without tracers, all registries of tracers and units, all states, all orders in which sets are listed", "why_tests_cant": "Tests call composites with states made for them; that the declared inputs suffice is a statement about every state that satisfies them and every combination of declarations.", "anchors": ["sympl/_core/combine_properties.py:combine_properties", "sympl/_core/combine_properties.py:combine_dims", "sympl/_core/composite.py:InputPropertiesCompositeMixin", "sympl/_core/tendencystepper.py:TendencyStepper.input_properties", "sympl/_core/base_components.py:TendencyComponent.__call__"]}
{"id": "C84", "title": "Composites and time steppers return what they declare", "statement": "If every component returns exactly the tendencies (and tracers) and diagnostics it declares, in the declared units, then a composite returns exactly the tendencies and diagnostics its own tendency_properties and diagnostic_properties declare, plus the tracers, in the declared units; a composite of diagnostic components also never raises SharedKeyError. A time stepper returns exactly the diagnostics it declares, and its new state differs from the given state at most in the declared outputs and the tracers. The tendencies a stepper adds to the diagnostics are in the units of the input per second, and outputs keep the units of the state, which need not be the declared units.", "quantifier": "all lists of components, implicit or not, with or without tracers, all states, all runs of a stepper, all orders in which sets are listed", "why_tests_cant": "Tests check particular composites; that the computed property dictionaries describe what every call returns is a statement about all declarations, all components and all states.", "anchors": ["sympl/_core/composite.py:TendencyComponentComposite", "sympl/_core/composite.py:ImplicitTendencyComponentComposite", "sympl/_core/composite.py:DiagnosticComponentComposite", "sympl/_core/tendencystepper.py:TendencyStepper.diagnostic_properties", "sympl/_core/tendencystepper.py:TendencyStepper.output_properties"]}
{"id": "C85", "title": "Unit strings: checks and conversions agree", "statement": "A percent sign means 'percent' and a degree sign means 'degree' wherever a unit string is given. units_are_same is an equivalence relation on the strings is_valid_unit accepts; is_valid_unit answers True or False for every string; units_are_compatible is symmetric; and a quantity whose units are valid and compatible with the wanted units can be converted to them, keeping the amount.", "quantifier": "all strings, all quantities, all unit registries of pint", "why_tests_cant": "Unit strings are arbitrary text and reach pint in two different ways; tests use a few plain units, for which both ways agree.", "anchors": ["sympl/_core/units.py:UnitRegistry.__call__", "sympl/_core/units.py:units_are_compatible", "sympl/_core/units.py:units_are_same", "sympl/_core/units.py:is_valid_unit", "sympl/_core/units.py:clean_units", "sympl/_core/units.py:data_array_to_units", "sympl/_core/units.py:from_unit_to_another"]}
{"id": "C86", "title": "Printing an object always ends and changes nothing", "statement": "repr() of a component, time stepper, monitor or composite ends whatever its attributes refer to, including itself, shows all attributes in order with '(recursive reference)' exactly where an object is inside itself, and leaves nothing behind: printing again gives the same text, also after a print that raised.", "quantifier": "all object graphs, cyclic or not, and all sequences of prints", "why_tests_cant": "Cycles arise from user attributes in arbitrary graphs; a test prints a few objects and cannot show termination on every graph.", "anchors": ["sympl/_core/base_components.py:TendencyComponent.__repr__", "sympl/_core/base_components.py:Monitor.__repr__", "sympl/_core/tendencystepper.py:TendencyStepper.__repr__", "sympl/_core/composite.py:ComponentComposite.__repr__"]}
{"id": "C87", "title": "The output file of a run holds one record per pass", "statement": "After a main loop that stores every completed state in a NetCDFMonitor, the file holds what it held before followed by one record per pass, for the times t0, t0+dt, ..., each with the stored quantities of that pass under their aliases and nothing else. With write_on_store this is so even when a component raises in a later pass; without it the file is untouched until write is called, which then gives the same file. Storing and writing never raise, so any exception of the loop comes from a component.", "quantifier": "all lists of components and steppers, initial states, time steps, end times, monitors with or without write_on_store, and files that already hold records; also loops around a Leapfrog stepper", "why_tests_cant": "The claim ties together the loop, the steppers' clock and the monitor's cache over runs of any length and any point of failure; a test runs a few steps without failure.", "anchors": ["docs/quickstart.rst", "sympl/_components/netcdf.py:NetCDFMonitor.store", "sympl/_components/netcdf.py:NetCDFMonitor.write", "sympl/_components/timesteppers.py:Leapfrog.__call__"]}
{"id": "C88", "title": "A run that died is taken up where it was", "statement": "A program runs the main loop and stores every completed state with a RestartMonitor. Whenever it dies, between two stores or at any point within one, a complete restart is left under the file name, or under that name with .old added if the first is missing. It holds the state completed in the last or the last but one pass. A new program with newly created objects that loads it and goes on stores the same states as the uninterrupted run would have from there on, and ends with the same state.", "quantifier": "all lists of components and steppers, initial states, time steps, end times, numbers of passes before the death, crash points within a store, and numbers of passes after it", "why_tests_cant": "A test cannot kill the process at every point of every store of runs of every length, and compare with the run that was not killed.", "anchors": ["sympl/_components/netcdf.py:RestartMonitor.store", "sympl/_components/netcdf.py:RestartMonitor.load", "docs/quickstart.rst", "sympl/_core/base_components.py:Stepper.__call__", "sympl/_components/timesteppers.py:AdamsBashforth._call"]}
{"id": "C89", "title": "A restart is loaded with the time it was stored with", "statement": "RestartMonitor.load gives the state with exactly the time it had when it was stored, to the microsecond, although load converts the time read through a floating-point number of seconds.", "quantifier": "all datetimes within the range of numpy's datetime64, before and after 1970, with any microseconds", "why_tests_cant": "There are about 2^54 such times; a test tries a few, and the ones that fail lie between and beyond those that are exact.", "anchors": ["sympl/_core/util.py:datetime64_to_datetime", "sympl/_components/netcdf.py:RestartMonitor.load"]}
{"id": "C90", "title": "SSPRungeKutta has the order of its stages", "statement": "One step of SSPRungeKutta with n stages (2 or 3) agrees with the exact solution of the equations the tendencies define up to the n-th power of the timestep, for tendencies that are polynomials of any quantities at any points and may depend on the time. For linear tendencies with coupling M the new value is v + h g + h^2/2 M g (+ h^3/6 M^2 g), with g the rates at the given state; so also over any number of steps.", "quantifier": "all polynomial systems of any degree, number of quantities and points, couplings, forcings, timesteps, states, units and histories of the stepper", "why_tests_cant": "The order is a statement about all coefficients and timesteps; a test compares numbers for a few, with a tolerance that hides a wrong coefficient of the highest power.", "anchors": ["sympl/_components/timesteppers.py:SSPRungeKutta._step_2_stages", "sympl/_components/timesteppers.py:SSPRungeKutta._step_3_stages", "sympl/_core/tendencystepper.py:TendencyStepper.__call__"]}
{"id": "C91", "title": "Leapfrog integrates quadratic functions of the time", "statement": "If the rate of change of a quantity is at each call the derivative of a polynomial of the time of degree at most two, and the first state lies on the polynomial, then so do all states that Leapfrog returns; for degree at most one also with the filter.", "quantifier": "all runs of any length, polynomials, timesteps, strengths and kinds of the filter, quantities, points and units, the caller setting the time between calls", "why_tests_cant": "The errors of single steps cancel or stay over a run of any length; a test runs a few steps and compares with a tolerance.", "anchors": ["sympl/_components/timesteppers.py:Leapfrog._call", "sympl/_components/timesteppers.py:step_leapfrog"]}
{"id": "C92", "title": "What a composite or a time stepper declares follows from its components", "statement": "A composite declares as inputs, tendencies and diagnostics what the declarations of its components combine to and nothing else: for each quantity units, alias and kind of the first declaration and all named dims. A time stepper declares as outputs exactly the quantities of which its components declare tendencies, in the units of the first declaration times a second; as diagnostics those of its components and, with tendencies_in_diagnostics, one entry X_tendency_from_<name> for each output with the units and dims of the tendency and no alias; as inputs those of its components and its outputs.", "quantifier": "all lists of components and property dictionaries, with and without tracers, for which construction succeeds", "why_tests_cant": "The dictionaries depend on the order of components, on shared quantities, omitted dims and tracers; a test checks a few combinations.", "anchors": ["sympl/_core/tendencystepper.py:TendencyStepper", "sympl/_core/composite.py", "sympl/_core/combine_properties.py"]}
{"id": "C93", "title": "An UpdateFrequencyWrapper inside a time stepper only delays the wrapped component", "statement": "A component wrapped in UpdateFrequencyWrapper and given to a time stepper, alone or among others, behaves as if it were not wrapped whenever successive steps are at least the update interval apart: same outputs, same failures, same object afterwards. Otherwise it is evaluated at most once a step and its last output is used until the interval has passed.", "quantifier": "all components, intervals, other components beside it, time steppers and sequences of steps with their outcomes", "why_tests_cant": "The wrapper looks at the time of the state, and a time stepper may call it several times with states of its own making; a test checks one stepper and one interval.", "anchors": ["sympl/_core/wrappers.py:UpdateFrequencyWrapper", "sympl/_core/composite.py:ImplicitTendencyComponentComposite", "sympl/_components/timesteppers.py", "sympl/_core/tendencystepper.py"]}
{"id": "C94", "title": "What UpdateFrequencyWrapper keeps is safe from the library but not from its callers", "statement": "The output an UpdateFrequencyWrapper returns again is the output its component computed last: neither the composite and time stepper it is used in, nor the components beside it, nor the program that calls them change it in between.", "quantifier": "all components that change no existing array, other components beside them, memory layouts, time steppers and runs", "why_tests_cant": "The wrapper returns references to arrays it goes on using; whether anything writes to them depends on everything else that holds them.", "anchors": ["sympl/_core/wrappers.py:UpdateFrequencyWrapper", "sympl/_core/composite.py", "sympl/_core/util.py:update_dict_by_adding_another"]}
{"id": "C95", "title": "Runs stay near the solution, and come nearer as the timestep is made shorter", "statement": "For components whose rates of change vary no faster than in proportion to the values, the values after any number of steps of AdamsBashforth, SSPRungeKutta or Leapfrog differ from a smooth solution of the equations by at most a constant times the error at the start plus the time run times the timestep, where the constant does not depend on the timestep or on the number of steps.", "quantifier": "all components with such rates (linear or not), states, timesteps, orders, numbers of stages, filters and numbers of steps", "why_tests_cant": "Tests compare a few runs with a few solutions; that refining the timestep converges is a statement about all of them at once.", "anchors": ["sympl/_components/timesteppers.py:AdamsBashforth", "sympl/_components/timesteppers.py:SSPRungeKutta", "sympl/_components/timesteppers.py:Leapfrog"]}
{"id": "C96", "title": "Rounding errors add up at most in proportion to the number of steps", "statement": "In any arithmetic whose operations round to a relative precision, and in IEEE double precision in particular, the values after any number of steps of AdamsBashforth or SSPRungeKutta are finite and differ from any curve by at most the errors by which the formula of the scheme misses the curve, the errors of the components' rates and one rounding error of a known size per step, each multiplied by a constant that depends on the time run and on how fast the rates vary, but not on the timestep or the number of steps, as long as that bound keeps the values in range.", "quantifier": "all rounding arithmetics with such bounds (double precision is proved to be one), components, states, orders, timesteps and numbers of steps", "why_tests_cant": "A test sees the rounding of one run on one machine; it cannot bound the rounding of all runs, or show that no run overflows.", "anchors": ["sympl/_components/timesteppers.py:AdamsBashforth", "sympl/_components/timesteppers.py:SSPRungeKutta"]}
{"id": "C97", "title": "Newtonian relaxation comes to its equilibrium over a run", "statement": "A quantity relaxed by RelaxationTendencyComponent towards a fixed equilibrium stays between its starting value and the equilibrium and comes within any distance of it after enough steps, with every time stepper and every positive timestep up to the relaxation timescale, in whatever units the state holds the quantity, its equilibrium and its timescale.", "quantifier": "all states, points, units, timescales, timesteps up to the timescale, time steppers, orders and numbers of steps", "why_tests_cant": "A test sees the values of a few steps; it cannot show where every run ends, or that a scheme goes past the equilibrium for some timesteps only.", "anchors": ["sympl/_components/basic.py:RelaxationTendencyComponent", "sympl/_components/timesteppers.py:AdamsBashforth", "sympl/_components/timesteppers.py:SSPRungeKutta", "sympl/_components/timesteppers.py:Leapfrog"]}
{"id": "C98", "title": "Part of a grid can be run alone", "statement": "When every component works column by column, a run on part of the grid (a region, every other point, a shifted or reflected grid, a single column as a state without horizontal dims, or the whole grid with its dims held in another order) stores and ends with exactly the part of what the run on the whole grid stores and ends with: component calls, composites, time steppers and the main loop mix no columns.", "quantifier": "all states, parts of the grid, column-by-column components with any vertical structure and units, composites, orders, stages, filters, timesteps, numbers of steps and monitors", "why_tests_cant": "A test compares one region with one grid; it cannot show that no unit conversion, broadcasting step, stored tendency or filtered state takes a value from another column in any run.", "anchors": ["sympl/_core/base_components.py:TendencyComponent", "sympl/_core/composite.py:TendencyComponentComposite", "sympl/_core/composite.py:ImplicitTendencyComponentComposite", "sympl/_components/timesteppers.py:AdamsBashforth", "sympl/_components/timesteppers.py:SSPRungeKutta", "sympl/_components/timesteppers.py:Leapfrog", "sympl/_core/get_np_arrays.py:get_numpy_arrays_with_properties", "sympl/_core/restore_dataarray.py:restore_data_arrays_with_properties"]}
{"id": "C99", "title": "A run whose objects share arrays in memory does what the run on separate values does", "statement": "In a model run, objects pass arrays to each other without copying them: states share arrays with the states before, time steppers keep tendencies, Leapfrog filters states where they lie and a NetCDF monitor keeps references until it writes. Such a run stores the same states, ends with the same state and leaves the same file and objects as a run in which every value is separate, and no state stored at one pass is changed by a later pass.", "quantifier": "all memories, states and sharing among their arrays, components, Steppers, AdamsBashforth, SSPRungeKutta and Leapfrog objects, monitors, timesteps, numbers of passes and failures during a pass", "why_tests_cant": "Whether a later pass writes into an array someone still holds depends on the whole history of the run and on which arrays are shared; a test looks at one history.", "anchors": ["sympl/_components/timesteppers.py:Leapfrog", "sympl/_components/timesteppers.py:AdamsBashforth", "sympl/_components/timesteppers.py:SSPRungeKutta", "sympl/_core/base_components.py:Stepper", "sympl/_components/netcdf.py:NetCDFMonitor", "sympl/_core/state.py:copy_untouched_quantities", "docs/quickstart.rst"]}
{"id": "C100", "title": "Symmetric states stay symmetric", "statement": "A model whose components work column by column, started from a state that a reflection or a shift of the horizontal grid leaves unchanged, stores and ends with states that it leaves unchanged, diagnostics included, whatever the stepper (AdamsBashforth, SSPRungeKutta, Leapfrog) and however many steps it takes. In particular a state that is the same in every column stays so.", "quantifier": "all such models, moves of the grid, initial states, steppers, numbers of steps and timesteps", "why_tests_cant": "A test can only run a few steps on a few grids; that no step, filter or unit conversion breaks the symmetry must hold for every grid, move and run.", "anchors": ["sympl/_components/timesteppers.py:AdamsBashforth", "sympl/_components/timesteppers.py:SSPRungeKutta", "sympl/_components/timesteppers.py:Leapfrog", "sympl/_core/base_components.py:TendencyComponent", "sympl/_core/base_components.py:Stepper", "sympl/_core/get_np_arrays.py:get_numpy_arrays_with_properties", "sympl/_core/restore_dataarray.py:restore_data_arrays_with_properties"]}
{"id": "C101", "title": "A run from a moved and rescaled state is the moved and rescaled run", "statement": "Take a model whose components answer a state that was moved over the grid (a reflection, a shift) and had each quantity multiplied by a factor of its own (such as -1 for the wind across the reflection, or 2 for every quantity of a linear model) with tendencies and diagnostics that are moved and multiplied in the same way. Then the run from such a state stores and ends with the moved and multiplied states of the original run, diagnostics and tendencies in diagnostics included, whatever the stepper (AdamsBashforth, SSPRungeKutta, Leapfrog) and however many steps it takes, as long as the quantities with factors other than 1 have no units with an offset. In particular a run of such a model from a state that is symmetric in some quantities and antisymmetric in others stays so, and composites of such components are such components.", "quantifier": "all such models, moves of the grid, factors, initial states, steppers, monitors, numbers of steps and timesteps", "why_tests_cant": "A test can only run a few steps from a few states; that no step, filter, unit conversion or finite difference breaks the symmetry must hold for every grid, move, factor and run.", "anchors": ["sympl/_components/timesteppers.py:AdamsBashforth", "sympl/_components/timesteppers.py:SSPRungeKutta", "sympl/_components/timesteppers.py:Leapfrog", "sympl/_core/tendencystepper.py:TendencyStepper", "sympl/_core/composite.py:ImplicitTendencyComponentComposite", "sympl/_core/dataarray.py:DataArray"]}
{"id": "C102", "title": "Whether a run raises does not depend on the values in the arrays", "statement": "For components that raise or return whatever the values in their arrays are: two states with the same quantities, dims, shapes, attributes and time give calls of components (those of sympl among them), composites, time steppers, steppers and the wrappers around them that both return results with the same quantities, dims, shapes and attributes, or both raise the same exception; and main loops that make the same number of passes, store states that differ in the values only and end in the same way. The two runs may compute with different arithmetics, so a run in floating point returns or raises as the run in exact arithmetic does.", "quantifier": "all pairs of states that differ in values only, all pairs of arithmetics, all components (with memory) whose exceptions do not depend on values, with and without tracers, all composites, AdamsBashforth, SSPRungeKutta and Leapfrog objects with histories that differ in values only, all monitors, all numbers of passes", "why_tests_cant": "No finite set of arrays can show that no other values make a unit conversion, a broadcast, a step formula or a filter take another path or raise.", "anchors": ["sympl/_core/base_components.py:TendencyComponent", "sympl/_core/base_components.py:Stepper", "sympl/_core/base_components.py:DiagnosticComponent", "sympl/_core/composite.py:ImplicitTendencyComponentComposite", "sympl/_core/tendencystepper.py:TendencyStepper", "sympl/_components/timesteppers.py:AdamsBashforth", "sympl/_components/timesteppers.py:SSPRungeKutta", "sympl/_components/timesteppers.py:Leapfrog"]}
{"id": "C103", "title": "Calls and runs on a rescaled state give the rescaled results", "statement": "Take a component whose array_call answers arrays multiplied by factors, one for each name (such as 2 for a wind and 4 for an energy), with outputs multiplied by factors of their own, or raises the same exception. Then calling the component on a state with every quantity multiplied by its factor returns exactly the tendencies, diagnostics or new values of the call on the original state, each multiplied by its factor and with the same dims and units, or raises the same exception: extraction, unit conversion, aliases, wildcard dims, restoring and tendencies in diagnostics all keep the factors. This holds for TendencyComponent, ImplicitTendencyComponent, DiagnosticComponent and Stepper, as long as the inputs with factors other than 1 have no units with an offset. If a quantity and its tendency have the same factor, composites of such components are alike, and the run from the rescaled state with AdamsBashforth, SSPRungeKutta or Leapfrog stores and ends with the rescaled states of the original run.", "quantifier": "all such components, factors, states, memories, timesteps, steppers, monitors and numbers of steps", "why_tests_cant": "A test can only multiply a few states by a few factors; that no conversion, reshaping, broadcasting or step adds something that does not scale must hold for every component, state and run.", "anchors": ["sympl/_core/base_components.py:TendencyComponent", "sympl/_core/base_components.py:DiagnosticComponent", "sympl/_core/base_components.py:Stepper", "sympl/_core/get_np_arrays.py:get_numpy_arrays_with_properties", "sympl/_core/restore_dataarray.py:restore_data_arrays_with_properties", "sympl/_components/timesteppers.py:AdamsBashforth"]}
