# Formal model of sympl in Rocq (Coq 8.16.1)

Source: `/repo/sympl` (read as text, never executed). Model, specifications and
proofs: `rocq/theories`. Property list: `properties.jsonl`. Status per property:
`MANIFEST.json`. Experiments with wrong programs: `seeded/LOG.jsonl`.

For each area there is a model file (definitions only, each citing the lines it
models), `Spec*.v` (vocabulary of the statements), proof files, `Ex_*.v`
(concrete cases) and `P_*.v` (the property theorems and nothing else).

## 1. How the code is modelled

* **Functions** are total Gallina functions mirroring the Python branch by
  branch, in the order the Python performs its checks. A comment on every
  definition cites the file and lines modelled and names any simplification.
* **Exceptions** are values of `exn`; a call returns `res A := Ok a | Err e`.
  A stateful call returns its new state also when it raises.
* **Loops** are folds or structural recursion. The two `while` loops without a
  bound (iterating over the constants, the main loop of a run script) take fuel,
  with a proof that it is enough or makes no difference.
* **Dictionaries** are insertion-ordered association lists (CPython >= 3.7
  order). **Sets** are lists passed through an arbitrary iteration order: where
  Python iterates over a set, the model takes the order as a parameter and the
  theorems quantify over it.
* **Numbers**: class `Arith T` (add, sub, mul, div, ofQ) without laws. What does
  not depend on arithmetic is proved for every instance, hence for binary64.
  Numeric theorems use `Qc` (exact rationals, Leibniz equality). One negative
  result uses Coq's primitive floats (`PrimFloat`).
* **numpy arrays** are `{ shape; data }`, the elements in row-major order, with
  Leibniz equality. Strides, dtypes and memory order are not modelled (dtype is
  float everywhere).
* **DataArray** is `{ dims; arr; attrs }`. The reading used in specifications is
  "value at named coordinates". Coordinates (xarray `coords`) are not modelled.
  Binary operations broadcast by dimension name as xarray does.
* **Units** (pint) are an oracle `parse : string -> option unit` where a unit is a
  dimension vector, a scale factor and an offset. Laws needed about composing
  unit strings are explicit hypotheses with a concrete parser satisfying them.
* **Time** is an integer number of microseconds (`Z`).
* **Component user code** (`array_call`) is an arbitrary function; stateful
  objects are arbitrary state machines; nothing is assumed except where the
  theorem says so.
* **Aliasing and in-place mutation** are modelled in a separate layer
  (`Heap*.v`): memory is a list of cells and an array is a list of cells in
  row-major order, so every numpy view is covered; `copy()` allocates, `+=` and
  `*=` write. Theorems relate this layer to the value model.
* **Files** (NetCDF, restart) are a small file-system model with named files,
  so that the crash points of a restart are the states between its steps.

## 2. Trusted base

Coq 8.16.1's kernel (with `vm_compute` in examples and refutations), the model's
faithfulness to `/repo` as documented by the citations, and what
`Print Assumptions` reports under each property theorem (section 5). C96 also
uses Flocq's definition of IEEE double precision (`Binary64.v`).

### What is modelled

| source | model |
|--------|-------|
| `_core/units.py`, `_core/dataarray.py` | `Units.v`, `DataArrayM.v` |
| `_core/wildcard.py`, `_core/get_np_arrays.py`, `_core/backend.py` (default backend) | `Wildcard.v`, `GetNp.v` |
| `_core/restore_dataarray.py`, `_core/init_np_arrays.py` | `Restore.v`, `InitNp.v` |
| `_core/base_components.py` (checkers, constructors, `__call__`) | `Components.v`, `ClassState.v` |
| `_core/base_components.py` (`ComponentMeta`) | `Duck.v` |
| `_core/tracers.py` | `Tracers.v` |
| `_core/combine_properties.py`, `_core/composite.py` | `Composite.v`, `MonComp.v` |
| `_core/tendencystepper.py`, `_core/state.py`, `_components/timesteppers.py` | `Steppers.v` |
| `_components/basic.py`, `_core/wrappers.py` | `Basic.v`, `Heap.v`, `Duck.v` |
| `_core/constants.py` | `Constants.v`, `StrFun.v` |
| `_components/netcdf.py` | `NetCDF.v`, `HeapNetCDF.v` |
| `_core/util.py` | `Prelude.v`, `Composite.v`, `NetCDF.v`, `UtilM.v`, `Clock64.v` |
| `_core/time.py` (`datetime`) | `Calendar.v` |
| memory behaviour of `util.py`, `composite.py`, `timesteppers.py`, `tendencystepper.py`, `state.py`, `wrappers.py`, `basic.py` | `Heap.v` |
| `_components/plot.py` | `HeapPlot.v` |
| component calls with any backend (`_core/backend.py`) | `Backend.v` |
| the run scripts of `docs/quickstart.rst` 42-51 and `docs/timestepping.rst` 15-22 | `MainLoop.v`, `LeapLoop.v` |
| memory behaviour of the component `__call__` methods, `get_np_arrays.py`, `restore_dataarray.py`, `tracers.py` | `HeapCalls.v` |

### Oracles (arbitrary parameters, recorded in the statements)

* `Registry.parse`: pint's parser. Hypotheses such as `sane_registry` and
  `per_second_law` state what a theorem needs of it; `ex_registry` satisfies them.
* `clean` (Steppers), `over_s` (Basic): the spelling pint gives to a computed unit.
* `NcLib`: how netCDF4 and xarray number and decode times, fit values into a
  slot, and decode variables. `plain_fit`, `clock` and similar hypotheses state
  what is needed.
* `ord`: the order in which Python iterates over a set.
* `cp` (HeapCalls): whether numpy copies or makes a view when it reshapes an array.
* `construct` (Calendar): the constructors of the datetime classes.

### What is not modelled

numba, matplotlib (a figure is an abstract value), logging, docstring machinery,
`__str__` of components (`__repr__` is in `ReprM.v`), backends that keep data of their own, the
arithmetic of other calendars, NetCDF binary encoding, numpy dtypes, xarray
coordinates, float rounding (except in the binary64 result, in `Clock64.v` and in C96), threads.
In main loops Leapfrog (which changes the state it is given) is only modelled
as the first process, with components that no other process calls.
The deprecated names in `__init__.py` are left out.

## 3. Plan per property

| id | model | proof |
|----|-------|-------|
| C01-C03 | `wildcard.py`, `get_np_arrays.py`, `backend.py` over flat arrays | induction on the property dictionary; key lemma: ravel of a flattened middle block |
| C04-C06 | `restore_dataarray.py`, `wildcard.py` | same array lemmas; C06 wildcard part refuted by witness |
| C05 | composition of the two | follows from C02 + C04 |
| C07 | `init_np_arrays.py` | fold invariant on dim lengths; alias case refuted |
| C08 | `units.py`, `dataarray.py` | field arithmetic in Qc |
| C09-C10 | checkers in `base_components.py` | list membership; C10 refuted in general, proved without aliases |
| C11-C15 | the four `__call__` methods with `array_call` a parameter | unfold + C01-C05 + C09 |
| C16-C17 | constructors | iff by induction on dictionaries; C17 in a model with shared class dictionaries |
| C18-C20 | `composite.py`, `util.update_dict_by_adding_another` | fold invariant, permutation invariance |
| C21-C22 | `combine_properties.py` | fold invariant; C22 partial + refuted |
| C23 | memory model of the same | frame invariant over the fold |
| C24-C27 | `AdamsBashforth` as a state machine | invariant over call sequences; history list |
| C25 | coefficients | `field` on polynomials of degree < k |
| C28-C29 | `Leapfrog` | invariant; field |
| C30-C31 | `SSPRungeKutta`, `state.py` | unfold; convexity |
| C32-C37 | `TendencyStepper`, all schemes; memory model for C36, C37 | fold invariants, linear functionals |
| C38 | internal AB(1) | refuted by witness; constant timestep proved |
| C39-C40, C64 | `basic.py` | field / order on Qc |
| C41-C44 | `wrappers.py` | state machine refinement; memory model for C42, C44 |
| C45-C48, C65 | `tracers.py`, `init_np_arrays.py` | invariants over op lists, array slicing lemmas |
| C49-C52, C66 | `constants.py` | invariants over op lists; fuel adequacy via a measure |
| C53-C57, C67 | `netcdf.py` | refinement to an abstract log; crash points; memory model for C67 |
| C58 | `MonitorComposite` | trace of calls; frame lemma for the files |
| C59-C63 | `util.py`, `ComponentMeta`, `time.py` | array lemmas, case analysis |
| C68 | `wrappers.py` over `ComponentMeta` | induction on the nesting |
| C69-C71 | the four `__call__` methods in memory | array lemmas on arrays of cells; simulation between memory and values |
| C72 | `plot.py` in memory | induction on the history |
| C73 | the call path with the backend as a parameter | logical relation between two backends, carried through every function of the call path |
| C74 | array_call as any relation that respects columns; component calls as modelled | raw indices of a column computed from the grid point (`extracted`, `main_restore_ok`), both calls put through the relation; for equal wildcard dims, equality of the raw arrays and of the look-ups in dim_lengths |
| C75 | stepper objects as processes (state, timestep -> diagnostics, new state), the main loop of docs/quickstart.rst and docs/timestepping.rst | keys of what restore_dataarray and finish_step return; induction over the passes; refuted for Steppers by a concrete call, and in general by `main_quickstart_stops` |
| C76 | the same loop, with a bound on the passes that is shown not to matter; any monitor | induction over the passes; the diagnostics and the clock of each pass read off a relation `in_turn` |
| C77 | trees of composites, calling the composite of C18-C20 at each level; construction of C21 in groups | structural induction over the tree: a node represents its leaves, sums of sums are sums; entries combined in groups have the dims of all entries |
| C78 | the main loop of C76, the files of C56, and a relation between what two programs remember | a simulation: related objects and states equal by name give related objects and equal results; instances for each kind of object; the loop to `stop1` and on to `stop` is the loop to `stop` |
| C79 | component calls of C11 with a tracer packer, AdamsBashforth of C24 around a composite of one component | restoring of C06 gives the units; what unpacking gives (C46) is put into the formula of C24 for a history of one call |
| C80 | the loop of C76 with Leapfrog, which changes the state it is given, as first process | the calls in a run are a history of C26, well-formed by induction over the passes; its formulas follow |
| C81 | the steppers of C24-C30, called again after they raised | case analysis on where the call raises; equal behaviour of all objects of order one; witnesses for what is left behind |
| C82 | the steppers of C24-C30 and the main loop of C76, on two states that agree on some quantities | two-run simulation: equal objects (Leapfrog: objects that agree on those quantities) after every call; pointwise reading of add and multiply; witness for a second datetime |
| C83 | combine_properties, composite and stepper input_properties (C21, C35) together with extraction and packing (C03, C45) | each combined entry is related to the entries it came from, then the iff of C03; the converse by building, for any combination, a state with all dims of length 1; witnesses for the two conditions |
| C84 | composite and stepper properties (C18, C20, C21, C35) together with the calls (C19, C24-C33) | the first contribution to a tendency comes from the first declaration, whose units the combined entry has; diagnostics as a union without shared names; stepper diagnostics from C35; witnesses for the units of steppers and for tracers |
| C85 | units.py with separate oracles for pint's parse_expression and parse_units, and the string replacements | the replacements compute an inductively defined spelling (induction on the string) and are idempotent; the answers depend on the spelling only; agreement with the one-oracle model of Units.v; witnesses with a pint that cannot read the signs |
| C86 | the guard _making_repr and the texts of all __repr__ methods, on a heap of objects | lexicographic measure: objects not yet being printed, then the age of a tuple or composite; equal to an inductive specification over the path of enclosing objects |
| C87 | the main loop of quickstart.rst (also with Leapfrog) with the NetCDFMonitor of C53 and C57 as its monitor | induction on the relation that specifies the loop (C76, C80), then the history theorem of the monitor over the list of stored states; increasing times make merging trivial |
| C88 | the main loop of quickstart.rst with the RestartMonitor of C55 and C56 as its monitor, and every crash point of its store | crash histories of C55 give a complete restart, C56 its contents; two runs from states that differ in the diagnostics only are related by induction over the passes |
| C89 | datetime64_to_datetime on nanoseconds: conversion to a double, division by 1e9, utcfromtimestamp, each with its rounding, in integer arithmetic | error bounds of half a unit in the last place for each step, in integers; the sum is below half a microsecond before 2106 |
| C90 | SSPRungeKutta as for C30, in exact rationals | the values of each stage as polynomials of the timestep; their first coefficients from the first two derivatives of the right-hand side; for linear systems the composition of the stages, expanded |
| C91 | Leapfrog as for C28, in exact rationals | a run at one point is the scalar recurrence; closed form of the recurrence by induction |
| C92 | make_tstep, make_tendency_composite, make_diagnostic_composite as for C20, C21, C35 | refinement to the combination of entry lists; induction over the insertion of tendency entries |
| C93 | uf_call behind implicit_composite_call in adams_bashforth, leapfrog and ssp_rk (Wrapped.v) | simulation of the wrapped by the plain run for AdamsBashforth and Leapfrog; for SSPRungeKutta invariance of the wrapper's state over the stages and reduction to constant components, then exact arithmetic |
| C94 | h_wrapper_call, h_wrapped_among (HeapWrapped.v) on the memory of C23 and C37 | simulation of memory by values with an invariant on the kept arrays, put together with the memory theorems for composites and time steppers |
| C95 | the steppers of C24-C26, with rates given by a function of time and values (SpecConverge.v) | induction over the steps with a discrete Gronwall inequality; for the filtered Leapfrog a potential that mixes the error with the error of the difference |
| C96 | the steppers of C24 and C30 in an arithmetic with bounds on its rounding (SpecRound.v), and double precision by Flocq (Binary64.v) | the bound of every operation of the formula composed over the formula, then the discrete Gronwall inequality of C95 |
| C97 | the component of C39 inside the steppers of C24, C25 and C26 | an exact formula for the distance after n steps by induction over the run, then bounds on the powers of its factor |
| C98 | the calls of C14, the composites of C21, the steppers of C24, C25 and C26 and the main loop, on two states at once | a relation between a DataArray and a part of it that every operation of the steppers keeps, and C74 for the components |
| C99 | the main loop with the calls of C71, the steppers of C37 and the monitor that keeps references, all in one memory | simulation, pass by pass, of the main loop on values; for Leapfrog the arrays of the stepped quantities are the only ones that change and no stored state has them |
| C100 | main loops with the steppers, over components that work column by column | runs on the same state compared point by point with C98's relation between grids (c100_run and one theorem for each stepper); the level states by c100_level |
| C101 | main loops with the steppers, over components that answer turned states (values at moved points, times a factor for each quantity) with turned outputs; exact arithmetic | every operation of the steppers on arrays is a sum, a difference, a product or quotient with a number, or a conversion of units, and each keeps the relation (c101_run, one theorem for each stepper, c101_composite); states that turn into themselves by comparing a run with itself (c101_balanced_*) |
| C102 | the component calls, composites, time steppers and main loops of C09-C24, C26-C31, C76 and C80 | a relation that keeps names, dims, shapes, attributes and times and forgets the numbers, between two arithmetics; every function of the model takes related arguments to related results or the same exception, by induction over dictionaries and passes |
| C103 | the calls of C14, the composites of C21 and the steppers of C24, C25 and C26 over exact arithmetic | equations between the call on a rescaled state and the rescaled call, function by function, and the relation between runs of C98 and C101 with this one in place of theirs |

No property is declared inexpressible.

## 4. Findings

Where the property is false of the code as modelled, a theorem whose name ends
in `_refuted` exhibits a case (or proves it for all cases). What still holds is
in the `_partial` theorems beside it, or under the hypotheses of the others.

| theorem | what it shows |
|---------|---------------|
| `c03_repeated_dim_refuted` | Without [no_repeated_dims] the claim is false: a consistent state is rejected with a ValueError when a dim listed by one quantity is matched by the '*' of another. |
| `c06_wildcard_shape_refuted` | A (z, x) raw array is accepted for dims ['*', 'z'] and its values end up at the wrong coordinates. |
| `c07_alias_refuted` | With an alias the initialised arrays cannot be restored. |
| `c10_accepted_restorable_refuted` | C10 fails with an alias: accepted, then KeyError, also for a whole call. |
| `c11_tracer_diagnostics_refuted` | C11 fails for the diagnostics of components that use tracers and report tendencies in diagnostics: the tendencies of tracers are returned but not declared. |
| `c15_aliased_output_refuted` | C15 fails for an aliased output: KeyError, although the call works with the option off. |
| `c15_time_unit_label_refuted` | C15 fails for a time unit other than a second: the units attribute still says per second. |
| `c17_failed_construction_refuted` | C17 is false of constructions that raise: after one, an instance made earlier refuses a state it was called with before. |
| `c17_later_instance_refuted` | C17 is false: an instance with the option breaks later ones without it. |
| `c17_second_instance_refuted` | C17 is false: a second instance with the option breaks the first. |
| `c22_asymmetric_refuted` | ... and swapping the arguments turns a refusal into a result. |
| `c22_incomplete_refuted` | ... declarations a quantity satisfies are refused, |
| `c22_unsound_refuted` | C22 is false when only one has '*': declarations no quantity can satisfy are combined, |
| `c24_late_quantity_refuted` | C24 fails for a quantity that gets a tendency later than others: it is not stepped although its rate is not zero. |
| `c27_history_refuted` | C27 fails: after a call that raised, the stored history grows with every call. |
| `c27_retry_refuted` | C27 fails: after a call that raised, the same good call gives another result. |
| `c32_runge_kutta_float_refuted` | C32 fails for SSPRungeKutta in binary64: 7/3 + 2*7/3 is not 7. |
| `c34_leapfrog_unit_change_refuted` | The same for Leapfrog (also C33: the new state has the units of the old one). |
| `c34_unit_change_refuted` | C34 fails when the units change between calls: units are mixed silently. |
| `c35_construction_refuted` | C35 fails for components whose units are not spelled as base units: such a stepper cannot be made. |
| `c37_diagnostic_refuted` | Without that condition on components: a diagnostic that is an array of the state is filtered with it. |
| `c37_shared_refuted` | Without that condition on the state: two quantities sharing an array are filtered twice. |
| `c38_any_timestep_refuted` | C38 fails: a timestep fine for a new object is refused by a used one. |
| `c41_called_once_refuted` | C41 fails if read as "called once": a TypeError of the component makes it called twice. |
| `c41_differ_refuted` | C41 fails as documented ("must differ by"): if time has gone back by more than the interval, nothing is recomputed. |
| `c42_shared_refuted` | C42 fails when a returned array is shared: an output without a factor is scaled. |
| `c43_refuted` | C43: the same component can be called without the wrapper. |
| `c43_tracers_fail_refuted` | C43 is violated, always: the state the component is given cannot be packed, when a tracer is not also a declared input. |
| `c44_constant_refuted` | C44 fails for a component that returns an array it keeps: each call scales it again. |
| `c44_state_refuted` | C44 fails for a component that returns an array of the state: the state is changed. |
| `c45_tracer_dim_twice_refuted` | C45 needs 'tracer' to be listed once in tracer_dims: listing it twice is accepted, and the packed arrays have fewer axes than tracer_dims. |
| `c47_listed_twice_refuted` | C47 fails: an accepted second registration lists the name twice. |
| `c47_refused_recorded_refuted` | C47 fails: a tracer whose registration was refused because of the output of a component is registered afterwards. |
| `c48_shapes_refuted` | C48 fails: the shapes differ if a tracer is registered twice, if it is registered and prepended, if there are no tracers, and if all tracers lack a dim. |
| `c53_units_refuted` | C53 fails for units: those of the later states of a batch are not looked at, and their numbers are written under the units of the first. |
| `c54_append_refuted` | C54 fails if a quantity does not fit the variable in the file: the times are already in the file, each further attempt adds them again, and none succeeds. |
| `c54_nothing_cached_refuted` | C54: a write without anything cached always fails, and creates the file. |
| `c56_other_dim_refuted` | C56 fails for a quantity named like a dim of another: it is missing after load(). |
| `c56_own_dim_refuted` | C56 fails for a quantity named like its own dim: it is stored, but cannot be loaded. |
| `c56_time_units_refuted` | C56 fails for quantities with units of time: load() gives them back without units. |
| `c56_timedelta_refuted` | C56 fails if times are timedeltas: the file cannot be loaded. |
| `c57_order_refuted` | C57 fails if an alias makes a name into another that is still to be renamed, although the aliases of all names differ. |
| `c57_same_alias_refuted` | C57 fails if two names have the same alias: one quantity is lost. |
| `c57_time_refuted` | C57 fails if an alias applies to 'time'. |
| `c59_required_refuted` | C59 fails with require_wildcard_matches: restore_dimensions does not know the required order, and puts the elements elsewhere. |
| `c62_unknown_refuted` | C62 fails for every other name: nothing is raised, and None is returned. |
| `c63_duplicates_refuted` | C63 fails for lists with duplicates. |
| `c65_columns_refuted` | C65 fails: with a temperature on (y, x) and a tracer on (x, y), equal at all points, position 1 along '*' of the raw temperature and of the packed tracer differ. |
| `c66_condensible_refuted` | C66 fails after choosing another condensible: listing the constants raises KeyError. |
| `c67_refuted` | C67 fails otherwise: an array changed between store() and write() is written as it is at the write. |
| `c68_scaling_refuted` | C68 fails for a ScalingWrapper around an UpdateFrequencyWrapper around an implicit tendency component: it is accepted, and every call raises TypeError. |
| `c69_state_refuted` | C69 does not hold of the state: an array_call that updates the array it is given changes the state of the caller, whatever copies numpy makes. |
| `c69_stepper_refuted` | And a Stepper whose array_call computes the new values in place then reports tendencies of zero, although the new state is right: what it subtracts is the array that was updated. |
| `c70_new_refuted` | It does not hold that what a call returns can be changed without changing anything else: a component whose array_call writes to nothing can return memory of the state, twice. |
| `c75_incomplete_refuted` | C75 fails: the new state of a Stepper lacks quantities of the state, and the Stepper cannot be called with it. |
| `c77_accepts_less_refuted` | and three others are accepted only without. |
| `c77_accepts_more_refuted` | C77 is false where only some have it: three components refused as a composite are accepted when the last two are put into a composite first, |
| `c78_adams_bashforth_refuted` | C78 is false of AdamsBashforth of order 2: with a new object the second step is one of forward Euler. |
| `c78_leapfrog_refuted` | C78 is false of Leapfrog: with a new object the second step is one of forward Euler. |
| `c78_wrapper_refuted` | C78 is false of UpdateFrequencyWrapper: a new object calls its component at once. |
| `c79_documented_refuted` | C79 is false of the documented time unit: with 's' a tracer in g has tendencies in 'g s', not 'g s^-1', and no AdamsBashforth can use them. |
| `c79_same_dims_refuted` | C79 is false of arrays with too many tracers: the documentation requires the shape of the array that was given, but slices that belong to no tracer are dropped without notice. |
| `c81_leapfrog_retry_refuted` | C81 is false of the caller's state with Leapfrog: the failed call has filtered it in part, and a retry with that state gives another result. |
| `c81_memory_refuted` | C81 is false of the memory of SSPRungeKutta: after one failed call the object keeps tendencies of every later call, without bound. |
| `c82_datetime_refuted` | C82, without the condition on datetimes: SSPRungeKutta raises on a state with one more datetime, although no component reads it. |
| `c83_dims_refuted` | C83 in full is false: a state that has all inputs of the composite, refused by a component because of its dims, |
| `c83_repeated_refuted` | ... and one from which the inputs of the composite can be extracted, but not those of the component. |
| `c84_output_units_refuted` | ... an output that is not in the declared units, |
| `c84_tendency_units_refuted` | C84 in full is false of steppers: a tendency in the diagnostics that is not in the declared units, |
| `c84_tracer_refuted` | ... and a tracer that is stepped although it is not among the declared outputs. |
| `c85_converts_refuted` | ... units that are valid and compatible cannot be converted, in either direction, |
| `c85_symmetric_refuted` | C85 in full is false: with a pint that cannot read a percent sign, units_are_compatible depends on the order of its arguments, |
| `c85_valid_refuted` | ... and is_valid_unit raises on a malformed string. |
| `c86_failed_refuted` | C86 in full is false: after a print that raised, the object is printed as a reference to itself for ever. |
| `c88_reads_own_diagnostic_refuted` | C88 does not hold for a component that reads a quantity which it also gives as a diagnostic: the run taken up reads the diagnostic of the stored state, the uninterrupted run reads the value it had before. |
| `c89_odd_second_refuted` | C89 does not hold for later times: the restart of 2150-01-01 00:00:01 is loaded as a microsecond earlier. |
| `c90_time_dependent_refuted` | C90 does not hold for tendencies that depend on the time: three stages do not integrate a quadratic polynomial of the time. |
| `c91_quadratic_refuted` | C91 in full does not hold for quadratic functions: the third call returns a state off the function. |
| `c93_runge_kutta_refuted` | C93: an update interval no longer than the timestep still changes what SSPRungeKutta returns. |
| `c94_spoilt_refuted` | C94: a caller that scales a diagnostic in place changes the state a later step computes, although it keeps the state itself apart and the component keeps nothing. |
| `c97_adams_bashforth_refuted` | C97 does not hold of AdamsBashforth of the orders 2 to 4: with a timestep of one timescale, three steps go past the equilibrium. |
| `c97_leapfrog_refuted` | C97 does not hold of Leapfrog with its default filter either. |
| `c99_in_place_refuted` | C99 does not hold for a Stepper that writes into the arrays it is given: the run ends as the run on values does, but states stored earlier are changed. |
| `c99_leapfrog_refuted` | C99 does not hold for a Leapfrog object whose components return tendencies of different quantities at different calls: the filter then changes states stored earlier. |

Seen while reading and not turned into properties: the docstrings of
`RelaxationTendencyComponent` and the constant components promise scale-factor
keyword arguments that the base constructor refuses; a Leapfrog step that raises
midway leaves the caller's state partly filtered; `'*'` in output dims with none
in the inputs raises TypeError in the constructor.

## 5. Assumptions per theorem

`Print Assumptions` stands below every property theorem (files `P_*.v`).

* All property theorems but two print `Closed under the global context`.
* `c32_runge_kutta_float_refuted` lists the standard library's primitive float
  and 63-bit integer constants (`PrimFloat.*`, `PrimInt63.*`) on which the
  evaluation in binary64 rests, and no logical axiom.
* `c96_double` (double precision rounds as C96 asks) lists the standard library's
  axioms of the real numbers, `ClassicalDedekindReals.sig_not_dec`,
  `ClassicalDedekindReals.sig_forall_dec`, `Classical_Prop.classic` and
  `FunctionalExtensionality.functional_extensionality_dep`. They come in through
  Flocq, whose float operations carry proofs about real numbers; Flocq itself
  declares no axiom. The example `c96_double_case` rests on the same ones.

`coqchk -o` on the development reports no axioms beyond those of the standard
library files it loads (primitive integers and floats, real numbers, classical logic and functional
extensionality, which other theorems do not use).
