# Machine-checked model of gerabaldi

The Python package in `/repo/gerabaldi` simulates wear-out tests: a test
specification (a list of stress and measurement steps) is executed against a
stochastic device model inside a stochastic test environment, and the result is
a report.  This directory holds a Rocq (Coq 8.16.1) model of that code, written
function by function from the source text, and proofs of the properties listed
in `properties.jsonl`.  The code was never run; the model was written by reading.

## Layout

* `rocq/theories/M_*.v` – the model (definitions only; every definition cites the
  file and lines it models and says where it simplifies).
* `rocq/theories/S_*.v` – small independent specifications used in statements.
* `rocq/theories/L_*.v` – lemmas and proofs.
* `rocq/theories/T_*.v` – the property theorems: only `Theorem … exact lemma`,
  `Example`s showing a concrete case meeting the hypotheses, and
  `Print Assumptions`.
* `MANIFEST.json` – property → theorem names.
* `seeded/LOG.jsonl` – mutation attempts against the model.

## Modelling conventions

* **Numbers.** The model is generic in a carrier `V` with a record of operations
  (`NumOps V`: + - * / abs comparisons, rounding, log10, powers).  No laws are
  assumed, so every theorem that is generic in `V` also holds for IEEE floats.
  Theorems that need arithmetic are stated at the real-number instance, at
  extended reals (R plus +inf, -inf, NaN) or exact rationals, or, where the
  property is about floating point, with Flocq's binary64 rounding operator.
  Concrete examples and refutation witnesses are computed in exact rationals.
* **Exceptions** are values: `res A := Ok a | Err e` with one constructor per
  exception class that can occur.  `Unmodelled` is a distinct error for behaviour
  deliberately left out (named where it is produced); no theorem that claims
  success covers it.
* **Side effects**: a computation is `world -> res A * world`.  The world holds
  the position of every random generator object.  A draw is
  `stream generator distribution position`, an arbitrary oracle (section
  variable), so theorems hold for every stream of random numbers.
* **Dictionaries** are insertion-ordered association lists with Python's update
  rule.  Python `set` order is an arbitrary permutation oracle.
* **numpy arrays** are a shape (list of nat) and row-major data; broadcasting,
  `where`, `full`, `reshape`, `expand_dims` and slicing are modelled for any rank.
  dtypes are not modelled (int and float arrays are the same).
* **User equations** are arbitrary functions from keyword arguments to a value or
  exception, which may also draw random numbers.  Calling checks the keyword
  names against the signature (unexpected or missing → TypeError).  Parameters
  with defaults and `**` parameters are modelled; positional-only and `*` parameters
  are not.  Equations do not mutate their arguments, except in `M_InPlace.v`, where
  arrays are cells of a heap, equations are arbitrary code on them and slices are
  views; its theorems (C100) say which in-place writes make no difference to the
  value model.  Equations that change a dictionary they are given are not modelled.
* **timedelta** is an integer number of microseconds, without limits except in
  `M_Range.v`, which adds Python's ±10^9-day range (C98).  The 292-year limit of
  pandas' nanosecond timedeltas is not modelled.
* **Loops** become structural recursion; the two data-dependent `while` loops
  (looped append, minimiser) use fuel.  The looped append returns `None` when the
  fuel is exhausted and the theorems say exactly when that happens for every
  amount of fuel; the minimiser's fuel is the code's own `maxiter`.
* **Aliasing** is modelled only where a property is about it: step lists shared
  by TestSpecs (C09), step objects and lists passed to append_steps (C97), the
  dictionary of counts passed to gen_init_state (C99), mechanism objects shared by parameters (C11), generator
  objects shared by random variables (generator ids), the TestSpec cursor (C07),
  handler lists (C55), arrays of the state passed to equations (C100).

## Trusted base

* Coq's kernel (8.16.1) and the `vm_compute` machine used in Examples.
* Axioms: only those of the standard library's real numbers and classical logic.
  `Print Assumptions` stands after every theorem in the `T_*.v` files; what it
  prints for each is listed under "Assumptions theorem by theorem" at the end of
  this file (280 of the 360 theorems of MANIFEST.json are closed under the
  global context).
* `M_NumB.v` gives the operations on binary64 used by instruments (C85 allows the floor of the
  logarithm a bounded error); its `nlog10` and `npow10` are placeholders (C89 replaces them by arbitrary functions, `b_ops`) on which no
  theorem depends.  C21 assumes only the comparison operations to be IEEE's.
* `M_Export.v` assumes of pandas' JSON writer (`double_precision=10`): ten decimals
  for 0 and magnitudes in [1e-15, 10^16 - 1], ten significant digits otherwise, and
  whole milliseconds for timedeltas; of its reader: decimal texts are read exactly.
  Times and values are exact rationals there.
* `M_Logger.v` assumes of `logging`: `addHandler` ignores a handler already present,
  `removeHandler` one that is not; `coloredlogs.install` adds a handler of its own
  class.
* The reading of the Python source, and the behaviour assumed of numpy, pandas,
  json and the standard library as described by the model's comments.

## What is modelled, and what is not

Modelled: `helpers.py` (`configure_logger`, time conversion, `_on_demand_import`,
`_get_single_index`, `_loop_compute`), `math/minimize.py`, `models/test_specs.py`, `models/states.py`,
`models/random_vars.py`, `models/devices.py` (LatentVar including `cbi_export`,
LatentMdl, mechanisms, CondShiftMdl, InitValMdl, DegPrmMdl, CircPrmMdl,
DeviceMdl), `models/phys_envs.py`, `models/reports.py`, `sim.py`,
`cookbook/test_specs.py`, `cookbook/test_envs.py`, `cookbook/mech_mdls.py`.

`M_Demo.v` has the simulations of the four scripts in `demos/`, `M_Script.v` their
entry points: the reports they save and load (files as a map from paths to exported
reports; a write succeeds - paths, directories and the exceptions of `mkdir` and
`open` are in `M_File.v`), their checks and the data they hand to the plotting
library (both vts_paper scripts build a *set* of reports for --data-dir, so that
indexing it fails).

Not modelled: logging text, the plotting libraries, command-line parsing, printing,
the pymc/pyro
objects themselves (only the parameters handed to them; `export_to_cbi` records the
arguments given to the equation and to the output distribution),
failures to write a file for want of permission or space, pandas column dtypes and column order,
memory layout and performance, changes made by user equations to dictionaries,
concurrent use from several threads.

## Properties: what is modelled and how it is proved

| Id | Model | Method |
|----|-------|--------|
| C01 | `append_steps`, no loop | case analysis, list equality |
| C02 | `append_steps` loop with fuel | induction on fuel against the arithmetic spec `(n-1)c < D <= nc` |
| C03 | validation branch of `append_steps`, `_convert_time` | case analysis; `forallb` induction |
| C04 | end-of-loop check; Flocq division | divisibility lemma over Z; rounding of the quotient with Flocq |
| C05 | loop with fuel | iff: fuel bound in one direction, for-all-fuel `None` in the other |
| C06 | `calc_samples_needed` as nested folds | invariant: value is a maximum; permutation invariance |
| C07 | iterator state machine (cursor on the object) | induction on steps and on call histories |
| C08 | `StrsSpec.__init__` | round-half-even bound over Q |
| C09 | heap of list objects, TestSpecs hold references | frame lemma for the heap; witness for sharing |
| C10 | `_convert_time` in both directions | exact rational proof; Flocq error analysis |
| C11 | heap of mechanism objects, nested propagation | induction over the traversal |
| C12 | `MechMdl.calc_deg_vals` | array lemma generic in V; refutation witness for the unit change |
| C13 | `LatentVar.__setattr__` state machine | invariant over assignment histories |
| C14 | `gen_latent_vals` | index arithmetic of broadcasting/reshape; draw counts |
| C15 | `EnvVrtnMdl` | as C13/C14 |
| C16 | `gen_env_cond_vals` | characterisation of each array by draws |
| C17 | set-order oracle | commutation of draws on disjoint generators (`apart`, `separate` in `S_Order.v`), permutation induction; witness when shared |
| C18 | seeding | determinism lemma over an entropy oracle; witness for seed 0 |
| C19, C20 | `cbi_export`, `set_centre` | case analysis; moments over R |
| C21–C23 | `MeasInstrument.measure` | order laws for R, Q and binary64 (Flocq, with infinities and NaN); significant-figure rounding over R |
| C24–C27 | `minimize`, vectorised with fuel = maxiter | loop invariants over R, list induction |
| C28, C34 | `DegMechMdl.calc_equiv_strs_time` | C24/C26 applied to the residue |
| C29, C30, C31 | mechanism stress | per-element lemma lifted to whole simulations |
| C32 | `_loop_compute` | index lemma, nested dictionaries by induction |
| C33 | stress step with exact equivalent time | induction over the partition |
| C35, C36 | `calc_cond_shifted_vals` | slicing lemmas |
| C37, C38 | `calc_circ_vals` | slicing lemma; dictionary lemma |
| C39, C40 | `gen_init_state` (both) | fold invariant over the count dictionary |
| C41–C44, C46–C49, C59, C60 | `simulate` | invariants by induction over steps |
| C45 | `format_measurements` | div/mod index bijection |
| C43, C46 | position of every summary row and exact length of every group of measured values (`S_Rows.v`), for the well-posed experiments of `S_Total.v` | same induction as C70, with the group lengths computed instead of bounded |
| C46, C48 | shapes of every stored array (`S_Shape.v`: an equation `respects` shapes, a device is `regular`) | invariant over steps; the default equations respect shapes |
| C50–C52 | JSON export/load, `convert_report_time` | rounding to 10 decimals over Q |
| C63 | JSON export twice | idempotence of the rounding over Q |
| C53, C54 | `htol` | uses C02/C05 |
| C55 | handler list state machine | invariant over call histories |
| C64 | `ideal_env` | every request evaluated; exactness of each element; witness for the name 'meas' |
| C65 | `volt_and_temp_env` | C21/C22 applied to the two instruments, over R; witnesses over Q |
| C66 | `jedec_nbti_mdl` over R | elementwise evaluation; monotonicity of the law; C28 instantiated |
| C67 | default equation of DegPrmMdl | fold over the mechanisms, broadcasting of sums; witnesses for reserved names |
| C68 | `LatentMdl.__init__` with object identity | induction over the keywords; naming commutes with sampling |
| C69 | `LatentMdl.export_to_cbi` | exact characterisation of successful calls |
| C70 | `simulate` | no-exception lemma for every function (`runs` in `L_Total.v`), shapes from C48; conditions in `S_Total.v` |
| C71 | `_sim_stress_step`, `calc_deg_vals` | arguments of the last equation call (`S_Value.v`) as an invariant of runs; sums from C67 |
| C72 | `_sim_meas_step`, `calc_cond_shifted_vals`, `MeasInstrument.measure` | rows of any measurement in terms of the state before it (`S_Reading.v`); elementwise evaluation of formulas |
| C73 | constructors of DegPrmMdl, CircPrmMdl, DeviceMdl (`M_Build.v`) | heap of objects with attribute dictionaries; exact attribute-name clash |
| C74-C77 | the four demonstration scripts (`M_Demo.v`) | they are well-posed experiments in the sense of C70; checks from the exact rows of C43 and C46 |
| C78 | a mechanism over a whole test | induction over steps with an inductive history; error recurrence for the equivalent times over R |
| C79 | measuring does not disturb the devices | footprints: which generators a computation reads and writes (`confined`), composed through the whole simulator |
| C80 | leaving out a degraded parameter | relational induction with footprints: run on the device and on the device without the parameter |
| C81 | sample counts of circuit parameters | last axis of a broadcast formula, with the shapes of C48 and the conditions of C40 |
| C82 | readings at constant stress | C71, C72 and C78 put together (`S_Const.v`); choice of equivalent times over the finite set of mechanisms |
| C83 | readings move in one direction | the histories of C78 from the first to the second measurement, induction over the stresses between (`S_Const.v`: `goes_on`) |
| C84 | the search follows Brent's method | Brent's method as a relation on the evaluations made so far (`S_Brent.v`); the state of an element is a function of its evaluations until its bracket is short (`L_Brent.v`: `tracks`) |
| C85 | significant figures in double precision | Flocq error analysis of multiply, rint, divide with exact powers of ten, for any logarithm with a bounded error (`S_Digits.v`); overflow of the power of ten |
| C86 | parameters with generators of their own can be simulated apart and in any order | induction over the parameters left out (`L_Parts.v`), from C80; witness with shared variation |
| C87 | a missing optional package fails the export, names the package and leaves the variable moved | `M_Import.v` repeats the exports with the modules that could be imported; case analysis; induction on the number of attempts |
| C88 | readings when the searches converge | `L_Rising.v`: a search of a rising function ends at the lower limit; induction over the history that equivalent times are accurate (`L_Search.v`); C82 instantiated; `L_Golden.v` proves convergence for the example |
| C89 | the search in double precision | `L_MinB.v`: error bounds of every rounded operation of a step, with overflow; `L_MinB2.v`: a run with an invariant equals the run with a guarded function; `L_MinB3.v`: sizes by powers of two exclude NaN; `L_MinB4.v`, `L_MinB5.v`: whole runs and equivalent times |
| C90 | exceptions in `simulate` | `L_Exn.v`: a simulation relation (same outcome, or one of the exceptions) as a congruence for every function; `L_Origin.v`: the exceptions of every function; `L_Exn2.v`: results that do not fit |
| C91 | exposure decides under changing conditions | `L_Mixed.v`: a search in which each minimum is inside or below the limits; `L_Expo.v`: induction over the stresses with the exposure as invariant; `L_Expo2.v`: readings, two tests compared, NBTI |
| C92 | time series of devices | `L_Series.v`: induction over the table of C46 with the labels of its groups; `S_Series.v` defines the steps that ask for a device |
| C93 | options of the demonstration scripts | `L_Script.v`, `L_Script2.v`: the runs of C74-C77, then saving (C50-C52) and reading back; paths are distinct |
| C94 | what the demonstration scripts draw | `L_Draw*.v`: the rows of a device (C92) through the filters of the scripts; a fold for averages and ranges (`S_Script.v`) |
| C95 | failures last; lifetimes in the oxide demonstration | `L_Fail.v`: a stress step changes a failure mechanism only while it is unset (`simulate_fails`), readings follow the stored values; `L_Fail2.v`, `L_Fail3.v`: the oxide equation is monotone in its nine defects; first change of a latched series |
| C96 | instruments and reports | `L_Obey.v`: every row of a report went through `measure_with` (`report_shown`); rounding gives at most p digits; ten decimals keep them |
| C97 | `M_Objects.v`: references to step objects and list objects, append_steps with its argument read at every pass | simulation of the value model for other lists; induction over doublings for the own list; occurrence counts |
| C98 | `M_Range.v`: the operations that make timedeltas, with Python's range check | a step is the unlimited step followed by one check; least pass with a bad sum; inversion of successful runs |
| C99 | `M_Reuse.v`: gen_init_state as a call that also returns the caller's dictionary, and sequences of such calls | closure of 'is used by' reached after as many passes as its longest chain; invariants of one pass |
| C100 | `M_InPlace.v`: stress and measurement steps, mechanisms and parameters on a heap of arrays, with arbitrary code for every equation | refinement of the value model, kept arrays as a frame condition (`sim` in `L_InPlace2.v`); witnesses without the conditions |
| C101 | none of its own: `gen_latent`, `gen_env` and `measure` over the real numbers | `S_Moments.v`: an expectation is any normalised, positive, linear functional on functions of the initial generator states; that the planned draws have the moments asked for and are uncorrelated (offset) or independent (scaling) is a hypothesis; the arrays are written as sums or products of planned draws and bilinearity does the rest |
| C102 | none of its own: `dev_init_state` and `simulate` over the real numbers | `S_Moments2.v`: `drawings` lists the latent variables of a device in the order of sampling; the state is computed from consecutive pieces of one plan of draws, and values computed from disjoint pieces are uncorrelated because the expectation of a product of functions of independent draws factors (`span` in `L_Moments5.v`); first readings are read off the rows of C43 |
| C103 | `M_File.v`: the file branch of `export_to_json` on a tree of directories and files (`mkdir(exist_ok=True)`, `open`, `rpartition`) | `S_File.v`; ordinary paths are split exactly by their text; walking is decided by the first place that is not a directory; changes of any call by cases |
| C104 | `simulate` in the ideal environment for parameters whose mechanisms have no latent variables | computations whose outcome is the same for all random streams (`fixed` in `L_Rigid.v`); a mechanism has one history; the searches keep arrays of equal elements equal (`L_Rigid2.v`); moments of the initial values from C102 |
| C56 | parameter maps | moments over R under each library's documented parameterisation |
| C57 | elementwise dependency | non-interference lemma |
| C58 | attribute namespace of PhysTestEnv | string suffix lemmas |

## Validation against the project's own tests

The code cannot be run here, so the model cannot be compared with it by execution.
`T_Suite.v` is the next best thing: the assertions of the project's unit, cookbook and
feature tests whose outcome does not depend on numpy's generators, on the numerical search,
or on powers and logarithms, computed by the kernel on the model over exact rationals.  All of
them agree with what the tests expect.  Assertions that are left out: values drawn from
seeded numpy generators, `calc_equiv_strs_time` of a degradation mechanism, `**` with
fractional exponents and `np.log`, types of returned objects, pandas input to `measure`,
infinite input to `measure`, and the assignment of an unknown attribute.

## Assumptions theorem by theorem

Print Assumptions lists exactly
`FunctionalExtensionality.functional_extensionality_dep` for this theorem:

`C17_report_same_for_every_order`.

Print Assumptions lists exactly `ClassicalDedekindReals.sig_forall_dec`,
`FunctionalExtensionality.functional_extensionality_dep` for this theorem:

`C101_independent_are_uncorrelated`.

Print Assumptions lists exactly `ClassicalDedekindReals.sig_forall_dec`,
`ClassicalDedekindReals.sig_not_dec`, `Classical_Prop.classic`,
`FunctionalExtensionality.functional_extensionality_dep` for these 78 theorems:

`C04_warning_exact`, `C04_float_quotient`, `C04_float_unbounded_refuted`,
`C10_float_round_trip`, `C20_export_mean_and_spread`, `C21_binary64`,
`C22_significant_figures`, `C22_idempotent`, `C22_monotone`,
`C24_only_inside_the_bounds`, `C24_result_and_budget`,
`C25_best_evaluated_point`, `C26_unimodal_bracket_and_accuracy`,
`C26_convergence`, `C26_vectorised_accuracy`,
`C27_vectorised_leaves_the_bounds_refuted`, `C27_excursion_is_bounded`,
`C27_excursion_small_tolerance`, `C28_equivalent_time_inverts`,
`C28_equivalent_times_invert_array`, `C28_first_guess_is_exact`,
`C33_sequence_of_stresses`, `C33_splitting_does_not_matter`,
`C34_fresh_sample_is_stressed_longer`, `C34_equivalent_time_range`,
`C56_parameter_translation`, `C65_temperature_readings`, `C65_voltage_readings`,
`C66_law`, `C66_acceleration`, `C66_equivalent_time`, `C66_latent_values`,
`C74_literals_binary64`, `C78_total_stress_time`,
`C78_at_least_the_last_stress`, `C82_readings_at_constant_stress`, `C82_bounds`,
`C83_readings_never_recover`, `C83_in_any_environment`,
`C83_small_errors_suffice`, `C83_first_stress_needs_no_accuracy`,
`C84_search_follows_brent`, `C84_each_element_follows_brent`, `C84_parabola`,
`C84_points_keep_apart`, `C85_readings`, `C85_reading_again`, `C85_monotone`,
`C85_exact_logarithm`, `C85_nearest_figure_refuted`, `C87_repeated_attempts`,
`C88_converged_searches_are_accurate`, `C88_readings`, `C88_nbti_in_htol`,
`C89_one_problem`, `C89_one_problem_moderate`, `C89_arrays`,
`C89_never_a_number`, `C89_equivalent_times`, `C89_degradation_not_a_number`,
`C89_tight_tolerance_refuted`, `C91_exposure_decides`, `C91_searches`,
`C91_readings`, `C91_equal_exposure`, `C91_order`, `C91_nbti`, `C96_figures`,
`C101_latent_offset`, `C101_latent_scaling`, `C101_condition_offset`,
`C101_condition_scaling`, `C101_readings`, `C101_same_seed_refuted`,
`C102_states`, `C102_first_readings`, `C104_no_chance`, `C104_moments`.

Every other theorem named in MANIFEST.json is `Closed under the global context`.
