{"id": "C01", "title": "append_steps without a loop appends exactly the given steps", "statement": "TestSpec.append_steps(steps) with no loop_for_duration leaves every existing step in place and order, adds exactly the given step (or the given list, in order) at the end, adds nothing else and never raises.", "quantifier": "every existing step list and every single step or step list", "why_tests_cant": "the step lists are unbounded; a test checks a few lengths only", "anchors": ["gerabaldi/models/test_specs.py:TestSpec.append_steps"]}
{"id": "C02", "title": "Looped append adds the minimal whole number of cycles that reaches the requested duration", "statement": "When the stress time of one cycle is positive, append_steps(steps, loop_for_duration=D) returns, with the old steps as a prefix followed by n whole copies of the cycle where n is the unique count with (n-1)*cycle < D <= n*cycle (n = 0 when D <= 0).", "quantifier": "every starting list, every cycle (any mix and number of stress/measure steps) with positive net stress, every duration", "why_tests_cant": "number of loop iterations is data dependent and unbounded", "anchors": ["gerabaldi/models/test_specs.py:TestSpec.append_steps"]}
{"id": "C03", "title": "Degenerate looped appends are rejected without touching the test", "statement": "A looped append with a zero duration, with a single measurement, or with a list containing no stress (including the empty list) raises UserConfigError and leaves the step list exactly as it was; an unknown time unit also raises UserConfigError and leaves the list unchanged.", "quantifier": "every step list, every all-measurement list of any length, every duration and unit string", "why_tests_cant": "all-measurement lists of any length and any non-unit string must be rejected", "anchors": ["gerabaldi/models/test_specs.py:TestSpec.append_steps", "gerabaldi/helpers.py:_convert_time"]}
{"id": "C04", "title": "The non-multiple warning is exact and never loses steps", "statement": "After a looped append the UserWarning is raised exactly when the appended stress time is not an integer multiple of the requested duration, and whether or not it is raised the step list afterwards is the same list of whole cycles described by C02. The float test `(t / duration).is_integer()` agrees with exact divisibility for every total below 2**53 microseconds (about 285 years).", "quantifier": "every cycle length and every duration", "why_tests_cant": "depends on arithmetic relation between two unbounded durations and on float rounding of the quotient", "anchors": ["gerabaldi/models/test_specs.py:TestSpec.append_steps"]}
{"id": "C05", "title": "Looped append terminates exactly when it can make progress", "statement": "A looped append that passes validation terminates if and only if D <= 0 or the net stress time of one cycle is positive; with a zero or negative net cycle (negative StrsSpec durations are accepted by the constructor) and D > 0 it appends for ever. (Times are unlimited here; C98 has the range of timedeltas, which ends the loop with OverflowError for a negative net cycle.)", "quantifier": "every cycle and every duration", "why_tests_cant": "non-termination cannot be observed by a finite test, termination for all inputs cannot be sampled", "anchors": ["gerabaldi/models/test_specs.py:TestSpec.append_steps", "gerabaldi/models/test_specs.py:StrsSpec.__init__"]}
{"id": "C06", "title": "calc_samples_needed is the per-parameter maximum over all measurements", "statement": "TestSpec.calc_samples_needed() has a key for a parameter iff some MeasSpec in the test measures it, and its value is the largest count any MeasSpec requests for it (an upper bound that is attained); it does not depend on the order of the steps, and appending steps can only grow it.", "quantifier": "every list of steps", "why_tests_cant": "for every step list, order and count", "anchors": ["gerabaldi/models/test_specs.py:TestSpec.calc_samples_needed"]}
{"id": "C07", "title": "Iterating a TestSpec yields its steps once each in order, but iterations cannot be nested", "statement": "Every complete `for step in test` loop yields precisely the steps of the test in order, any number of times in succession and regardless of earlier iterations that were abandoned midway. Two overlapping iterations of the same TestSpec interfere: after the inner one finishes, advancing the outer one raises AttributeError (for every test, however long).", "quantifier": "every step list, every history of iter/next calls", "why_tests_cant": "cursor is shared mutable state; every history of calls must be considered", "anchors": ["gerabaldi/models/test_specs.py:TestSpec.__iter__", "gerabaldi/models/test_specs.py:TestSpec.__next__"]}
{"id": "C08", "title": "A StrsSpec never has zero duration and its duration is the requested one to the nearest microsecond", "statement": "StrsSpec construction succeeds iff the unit is known and the duration does not round to 0 microseconds; it then holds a timedelta within half a microsecond of the requested amount of the unit (exactly the timedelta if one was passed); otherwise UserConfigError is raised. (Within the range of timedeltas; C98 has the rest.)", "quantifier": "every number, timedelta and unit string", "why_tests_cant": "all rationals and all unit strings", "anchors": ["gerabaldi/models/test_specs.py:StrsSpec.__init__", "gerabaldi/helpers.py:_convert_time", "gerabaldi/helpers.py:TIME_UNIT_MAP"]}
{"id": "C09", "title": "A TestSpec shares the step list object passed to it", "statement": "Constructing TestSpecs without a step list gives each its own list: no sequence of appends to one ever changes another. A TestSpec built from a caller's list aliases it: an append to either of two TestSpecs built from the same list is visible in both and in the caller's list (isolation is refuted).", "quantifier": "every heap of step lists, every sequence of append operations", "why_tests_cant": "aliasing appears only in particular histories of operations over several objects", "anchors": ["gerabaldi/models/test_specs.py:TestSpec.__init__", "gerabaldi/models/test_specs.py:TestSpec.append_steps"]}
{"id": "C10", "title": "Time conversion round-trips and accepts exactly the documented units", "statement": "_convert_time accepts exactly days/d, hours/h/None, seconds/s, milliseconds/ms, microseconds/us and raises UserConfigError for every other string; long and short names agree; converting a timedelta to a number of any unit and back gives the identical timedelta: with exact arithmetic for every timedelta, and with IEEE binary64 rounding of every operation for every timedelta of magnitude at most 2**50 microseconds (35 years).", "quantifier": "every timedelta, every unit string", "why_tests_cant": "2**51 timedeltas times five units, plus rounding behaviour", "anchors": ["gerabaldi/helpers.py:_convert_time", "gerabaldi/helpers.py:TIME_UNIT_MAP", "gerabaldi/helpers.py:TIME_SECOND_FACTORS"]}
{"id": "C11", "title": "Time units resolve mechanism first, then parameter, then device, then hours", "statement": "After constructing a DeviceMdl, every mechanism's time unit is its own if it had one, else its parameter's, else the device's, else 'h'; other mechanisms' units never influence it, and constructing another DeviceMdl from the same parts changes nothing. If one mechanism object is shared by several parameters, the first parameter in order decides for all of them.", "quantifier": "every device: any number of parameters and mechanisms, any units set at any level, any sharing", "why_tests_cant": "any nesting/number of parameters and mechanisms, object sharing", "anchors": ["gerabaldi/models/devices.py:DeviceMdl.propagate_time_unit", "gerabaldi/models/devices.py:DegPrmMdl.propagate_time_unit", "gerabaldi/models/devices.py:MechMdl.set_time_unit"]}
{"id": "C12", "title": "Stress beyond 9e9 mechanism time units is silently ignored", "statement": "For a sample whose total (equivalent + applied) stress time exceeds 9e9 of the mechanism's own time units, the mechanism value after the stress is exactly the value before it (unless that is +inf, which marks other samples), whatever the equation; otherwise a degradation mechanism takes the equation's value. Hence simulated degradation is not invariant under the choice of time unit: a hard-failure mechanism with certain failure does fail in a 3 hour stress in hours but can never fail in the same stress expressed in microseconds.", "quantifier": "every mechanism equation, stress condition, latent value, time and array shape", "why_tests_cant": "threshold interacts with every unit and every duration", "anchors": ["gerabaldi/models/devices.py:MechMdl.calc_deg_vals", "gerabaldi/sim.py:_sim_stress_step"]}
{"id": "C13", "title": "LatentVar variation layers that are not user defined are always no-ops", "statement": "After any sequence of attribute assignments (vrtn_type, any layer's distribution set or removed, deter_val, valid or invalid types) to a LatentVar, each layer the user has not defined samples the neutral element of the current variation type (0 for offset, 1 for scaling), the operation used matches vrtn_type, user-defined layers are exactly those last assigned, and an invalid vrtn_type raises InvalidTypeError and changes nothing.", "quantifier": "every constructor argument combination and every finite history of attribute assignments", "why_tests_cant": "histories of assignments are unbounded", "anchors": ["gerabaldi/models/devices.py:LatentVar.__init__", "gerabaldi/models/devices.py:LatentVar.__setattr__"]}
{"id": "C14", "title": "LatentVar samples combine one draw per lot, one per chip and one per device", "statement": "gen_latent_vals(D, C, L) returns an (L, C, D) array whose element [l][c][d] is op(op(op(deter, dev[(l*C+c)*D+d]), chp[l*C+c]), lot[l]) of the next draws of the three distributions (without the deter term when it is None): devices on one chip share the chip draw, chips in one lot share the lot draw, device draws are never shared. Exactly L, L*C and L*C*D draws are consumed from the respective distributions.", "quantifier": "every L, C, D, every distribution stream, every operation", "why_tests_cant": "all array sizes and indices", "anchors": ["gerabaldi/models/devices.py:LatentVar.gen_latent_vals"]}
{"id": "C15", "title": "EnvVrtnMdl layers: neutral when undefined, one draw per batch, chip and device", "statement": "After any sequence of attribute assignments to an EnvVrtnMdl the undefined layers are neutral for the current variation type; gen_env_vrtns(base, D, C, L) is an (L, C, D) array with element [l][c][d] = op(op(op(base, batch), chp[l*C+c]), dev[(l*C+c)*D+d]). With no layer defined the result is the base value everywhere.", "quantifier": "every history of assignments, every base value, every L, C, D", "why_tests_cant": "histories and sizes are unbounded", "anchors": ["gerabaldi/models/phys_envs.py:EnvVrtnMdl"]}
{"id": "C16", "title": "Generated stress conditions share chip values across parameters and are complete", "statement": "gen_env_cond_vals gives, for each device parameter in the request, exactly the conditions its model depends on for the target (stress: parameter and mechanism equation arguments; measure: parameter and conditional-shift arguments) restricted to the conditions given, each as an (L, C, n_prm) array; for one condition the same batch and chip draws underlie the arrays of every parameter, whereas device draws are fresh for each parameter. For a requested environmental condition that is not a device parameter it gives one value per sensor, using the shared batch draw and fresh chip and device draws.", "quantifier": "every environment, device model, request, number of lots, chips and devices", "why_tests_cant": "unbounded numbers of parameters/conditions/chips", "anchors": ["gerabaldi/models/phys_envs.py:PhysTestEnv.gen_env_cond_vals", "gerabaldi/models/devices.py:DegPrmMdl.get_dependencies", "gerabaldi/models/devices.py:CircPrmMdl.get_dependencies"]}
{"id": "C17", "title": "Simulation results do not depend on Python string hashing", "statement": "DegPrmMdl.get_dependencies returns the elements of a set, so the order in which conditions are sampled depends on the hash seed. If distinct conditions do not share a generator object, the complete report of simulate is the same for every order. If two conditions do share one generator, results can differ between orders (reproducibility refuted).", "quantifier": "every pair of orders, every test, device model and environment", "why_tests_cant": "hash seeds are per process; quantifies over every ordering at every step", "anchors": ["gerabaldi/models/devices.py:DegPrmMdl.get_dependencies", "gerabaldi/models/phys_envs.py:PhysTestEnv.gen_env_cond_vals"]}
{"id": "C18", "title": "test_seed makes sampling reproducible unless it is 0", "statement": "Two random variables constructed with the same non-zero test_seed and the same parameters produce the same sequence of samples however the draws are split into calls, whatever the OS entropy; a test_seed of 0 is treated as no seed, so two such variables can differ.", "quantifier": "every seed, every entropy source, every split of draws into sample calls", "why_tests_cant": "the entropy source is not controllable in a test and a 0 seed looks like any other", "anchors": ["gerabaldi/models/random_vars.py:RandomVar.__init__", "gerabaldi/models/random_vars.py:RandomVar.sample"]}
{"id": "C19", "title": "cbi_export leaves the variable unchanged unless the distribution is centred on 0", "statement": "LatentVar.cbi_export restores the device distribution's centre after a successful export whenever its centre was non-zero or no (non-zero) deterministic value is set; if the centre was 0 and deter_val is non-zero, the distribution is left permanently re-centred (on deter_val for offset variation), which changes all later samples.", "quantifier": "every deterministic value, centre, spread, variation type and set of layers", "why_tests_cant": "a side effect visible only in histories export-then-sample with a particular centre", "anchors": ["gerabaldi/models/devices.py:LatentVar.cbi_export", "gerabaldi/models/random_vars.py:Normal.set_centre"]}
{"id": "C20", "title": "cbi_export preserves the mean but, for scaling variation, not the spread", "statement": "The exported device distribution has the same mean as the simulated base value (deter_val combined with the device distribution) for both variation types, and the same standard deviation for offset variation; for scaling variation the exported standard deviation is sigma instead of |deter_val|*sigma, so it agrees iff |deter_val| = 1 or sigma = 0.", "quantifier": "every deter_val, mu and sigma", "why_tests_cant": "statement about distributions for all parameters", "anchors": ["gerabaldi/models/devices.py:LatentVar.cbi_export", "gerabaldi/models/devices.py:LatentVar.gen_latent_vals"]}
{"id": "C21", "title": "A measuring instrument never reports a value outside its limits", "statement": "For an instrument with meas_lims, every reported value lies between the smaller and the larger limit (whichever order they were given in), whatever the true value, error draw and precision, including infinite true values (only a NaN stays outside, and only as a NaN); a value already rounded inside the limits is reported as is, and one outside reads the limit nearest to it (no in-range value lies strictly between the rounded value and the reported one).", "quantifier": "every true value (finite or infinite), error draw, precision and limits", "why_tests_cant": "real-valued inputs", "anchors": ["gerabaldi/models/phys_envs.py:MeasInstrument.measure"]}
{"id": "C22", "title": "Instrument precision rounds to the requested number of significant figures", "statement": "With precision p > 0 and no error or limits, the reported value of a non-zero finite x is an integer multiple of 10^(e-p+1) nearest to x, where 10^e <= |x| < 10^(e+1): it differs from x by at most half a unit of the p-th significant digit, has the sign of x, and is never zero; re-measuring a reported value returns it unchanged, and larger true values never read smaller.", "quantifier": "every non-zero real and every precision", "why_tests_cant": "all reals across all decades, rounding up across powers of ten", "anchors": ["gerabaldi/models/phys_envs.py:MeasInstrument.measure"]}
{"id": "C23", "title": "An ideal instrument is the identity and effects apply in the order error, precision, limits", "statement": "An instrument with no precision, error or limits reports the true values unchanged and consumes no random draws; in general measure is clip(round(value + error)) element by element, one error draw per value in order.", "quantifier": "every list of true values and every instrument", "why_tests_cant": "all value lists and all instruments", "anchors": ["gerabaldi/models/phys_envs.py:MeasInstrument.measure", "gerabaldi/models/phys_envs.py:PhysTestEnv.meas_instm"]}
{"id": "C24", "title": "The minimiser stays inside its bounds and within its iteration budget", "statement": "For a single problem, minimize evaluates the function only at points inside the given bounds, returns a point inside the bounds, and performs at most maxiter iterations (maxiter + 1 evaluations), for every function whatsoever.", "quantifier": "every function, bounds, precision and maxiter", "why_tests_cant": "every possible objective function", "anchors": ["gerabaldi/math/minimize.py:minimize"]}
{"id": "C25", "title": "The minimiser returns the best point it evaluated", "statement": "The value of the objective at the returned point is no larger than at any other point at which minimize evaluated it, and the returned point is one of the evaluated points; this holds for every element of a vectorised call.", "quantifier": "every function, every number of problems solved in parallel, every maxiter", "why_tests_cant": "every possible objective function and iteration count", "anchors": ["gerabaldi/math/minimize.py:minimize"]}
{"id": "C26", "title": "For a unimodal objective the minimiser brackets and, when it converges, locates the minimum", "statement": "If the objective strictly decreases up to its minimum and strictly increases after it within the bounds, the search interval always contains the true minimum; if the loop ends by convergence rather than by maxiter the returned point is within twice the tolerance (less than the requested precision, up to the relative term) of the true minimum. A single problem is certain to end by convergence once maxiter times the absolute tolerance covers the search interval. The accuracy part also holds for every element of a vectorised call.", "quantifier": "every strictly unimodal function, every bounds", "why_tests_cant": "needs an invariant over all iterations for all unimodal functions", "anchors": ["gerabaldi/math/minimize.py:minimize"]}
{"id": "C27", "title": "Vectorised minimisation can leave the bounds, but only by a bounded amount", "statement": "In a vectorised call, a problem that has already converged keeps stepping while others have not, and can evaluate and return a point outside the requested bounds (refutation of bound-respecting); measured in the search coordinate (decimal log with log_gold) the excursion after k iterations is at most (hi-lo)((1+sqrt(mach_eps))^k-1), i.e. under 2.6e-5 decades for the call the simulator makes, and nothing when mach_eps is 0.", "quantifier": "every vector of problems, every function", "why_tests_cant": "needs interaction of several problems with different convergence speed", "anchors": ["gerabaldi/math/minimize.py:minimize"]}
{"id": "C28", "title": "Equivalent stress time inverts a strictly monotone degradation law", "statement": "For a single sample of a degradation mechanism whose equation is strictly monotone in time and continuous, and whose current degradation is reachable at a time T in [1e-3, 1e10], the computed equivalent stress time is in [1e-3, 1e10], and if the search converged it is within a factor 10^(2*tol) of T (tol about 3.4e-6).", "quantifier": "every strictly monotone equation, every condition and every reachable degradation", "why_tests_cant": "all monotone equations", "anchors": ["gerabaldi/models/devices.py:DegMechMdl.calc_equiv_strs_time", "gerabaldi/math/minimize.py:minimize"]}
{"id": "C29", "title": "A hard failure is permanent", "statement": "Once a FailMechMdl mechanism of a sample differs from its unitary value, its value never changes again, under any sequence of further stress and measurement steps, conditions, durations and random draws.", "quantifier": "every test, every history, every equation (including random ones)", "why_tests_cant": "induction over unbounded step sequences", "anchors": ["gerabaldi/models/devices.py:FailMechMdl.calc_deg_vals", "gerabaldi/sim.py:_sim_stress_step"]}
{"id": "C30", "title": "Hard failure mechanisms are evaluated on the current step duration only", "statement": "A FailMechMdl has equivalent prior stress time zero for every sample, so in each stress step its equation is evaluated with exactly the duration of that step in the mechanism's time unit, independent of all previous stress.", "quantifier": "every history and every step", "why_tests_cant": "all histories", "anchors": ["gerabaldi/models/devices.py:FailMechMdl.calc_equiv_strs_time", "gerabaldi/sim.py:_sim_stress_step"]}
{"id": "C31", "title": "The default mechanism model cannot be stressed", "statement": "A DegMechMdl or FailMechMdl built without an equation is documented as non-degrading, but a stress step on a device containing one raises TypeError for every stress condition and duration (its equation takes no `time` argument), so no simulation with such a mechanism and a stress step succeeds. An equation of any other argument list without `time` fails the same way.", "quantifier": "every device containing such a mechanism, every test with a stress step", "why_tests_cant": "for all device models and tests", "anchors": ["gerabaldi/models/devices.py:MechMdl.__init__", "gerabaldi/models/devices.py:MechMdl.calc_deg_vals", "gerabaldi/models/devices.py:DegMechMdl.calc_equiv_strs_time"]}
{"id": "C32", "title": "The per-sample fallback computes the same values as array evaluation", "statement": "_loop_compute(eqn, args, (L, C, D)) fills element [i][j][k] with the equation applied to element [i][j][k] of every array argument (at any nesting depth of dictionaries) and to scalar arguments unchanged; for an equation that acts element by element this equals the array evaluation, so falling back to it never changes a result.", "quantifier": "every equation, every argument dictionary, every dimension", "why_tests_cant": "all shapes, all equations, nested dictionaries of any depth", "anchors": ["gerabaldi/helpers.py:_loop_compute", "gerabaldi/helpers.py:_get_single_index"]}
{"id": "C33", "title": "Splitting a stress interval does not change the outcome", "statement": "When the equivalent time found is exact, stressing for d1 then d2 under the same conditions gives the same degradation as stressing for d1 + d2 once; in general the value after any sequence of stresses at the same conditions is the equation at (initial equivalent time + total duration).", "quantifier": "every equation injective in time, every partition of the duration", "why_tests_cant": "all partitions of all durations", "anchors": ["gerabaldi/sim.py:_sim_stress_step", "gerabaldi/models/devices.py:MechMdl.calc_deg_vals"]}
{"id": "C34", "title": "A fresh device is stressed slightly longer than requested", "statement": "Because the equivalent time of a fresh sample is at least 1e-3 of the mechanism's unit, a single stress of duration T on a fresh single sample evaluates a degradation law at a time t with T + 1e-3 <= t, never at T itself.", "quantifier": "every equation and every duration", "why_tests_cant": "holds for all equations, hidden by rounding in tests", "anchors": ["gerabaldi/models/devices.py:DegMechMdl.calc_equiv_strs_time", "gerabaldi/sim.py:_sim_stress_step"]}
{"id": "C35", "title": "Measuring fewer devices than simulated measures the first devices of every chip", "statement": "Measuring k of n simulated devices of a degraded parameter uses, for every chip of every lot, exactly the current values and latent values of devices 0..k-1 of that chip, whatever k <= n, and never another chip's devices.", "quantifier": "every array size, k and nesting of latent values", "why_tests_cant": "all sizes", "anchors": ["gerabaldi/models/devices.py:DegPrmMdl.calc_cond_shifted_vals", "gerabaldi/models/devices.py:DegPrmMdl._reduce_dev_dim_size"]}
{"id": "C36", "title": "An ideal measurement at reference conditions returns the underlying value", "statement": "For a parameter with the default summation equation, mechanisms with unitary value 0 and no conditional shift, the values measured by an ideal instrument are exactly the current parameter values, however many mechanisms there are. For a custom equation with its own latent variables the equation is applied a second time on measurement, so this fails (witness).", "quantifier": "every number of mechanisms, every state", "why_tests_cant": "all states and mechanism sets", "anchors": ["gerabaldi/models/devices.py:DegPrmMdl.calc_cond_shifted_vals", "gerabaldi/models/devices.py:DegPrmMdl.__init__"]}
{"id": "C37", "title": "Circuit parameter sample limit is applied to lots, not devices", "statement": "CircPrmMdl.calc_circ_vals(k, ...) returns the equation's array cut to its first min(k, L) lots with every chip and every device retained; so the result has L*C*k values iff the uncut result satisfies min(k,L)*n = L*k. In particular measuring k < L samples per chip drops whole lots from the report.", "quantifier": "every k, every result array", "why_tests_cant": "all dimensions; coincides with the intended behaviour when L = k = n", "anchors": ["gerabaldi/models/devices.py:CircPrmMdl.calc_circ_vals"]}
{"id": "C38", "title": "Circuit parameter arguments resolve to latent, then condition, then degraded parameter", "statement": "calc_circ_vals passes, for each named argument of the equation, the latent value if there is one, else the generated stress condition, else the current value of the degraded parameter of that name, and passes no other argument; if an argument is found nowhere TypeError is raised.", "quantifier": "every equation signature, every latent/condition/parameter naming", "why_tests_cant": "all combinations of name overlaps", "anchors": ["gerabaldi/models/devices.py:CircPrmMdl.calc_circ_vals"]}
{"id": "C39", "title": "State generation provides enough samples of the parameters a circuit parameter needs", "statement": "After gen_init_state, the sample count of each measured parameter is at least the requested one, and every device parameter required by a measured circuit parameter has at least as many samples as that circuit parameter, provided circuit parameters depend only on degraded parameters; the counts are the least such. Stress conditions listed among the counts are ignored.", "quantifier": "every device model, every count dictionary in every order", "why_tests_cant": "iteration order and repeated updates over arbitrary dictionaries", "anchors": ["gerabaldi/sim.py:gen_init_state", "gerabaldi/models/devices.py:CircPrmMdl.get_required_prms"]}
{"id": "C40", "title": "A device parameter that is neither measured nor required makes state generation fail", "statement": "DeviceMdl.gen_init_state succeeds on a model only if every parameter of the model has a sample count; otherwise KeyError is raised, for every model, so the documented fallback for unmeasured parameters is never reached.", "quantifier": "every device model and count dictionary", "why_tests_cant": "for every model; the fallback branch looks reachable but never is", "anchors": ["gerabaldi/models/devices.py:DeviceMdl.gen_init_state"]}
{"id": "C41", "title": "Latent values and initial values never change during a simulation", "statement": "Through any sequence of steps of a simulation the latent variable values, the initial parameter values and the initial mechanism values of the state are exactly those of the initial state, and the set of degraded parameters and mechanisms in the state stays the same.", "quantifier": "every test, device, environment and initial state", "why_tests_cant": "invariant over all step sequences", "anchors": ["gerabaldi/sim.py:_sim_stress_step", "gerabaldi/sim.py:_sim_meas_step"]}
{"id": "C42", "title": "Measurement steps never change the physical state", "statement": "A measurement step leaves the whole simulation state (elapsed time, parameter, mechanism, latent values) unchanged, so with a deterministic environment and pure equations, inserting or removing measurement steps changes neither the final state nor any other measurement.", "quantifier": "every test, every position and number of inserted measurements", "why_tests_cant": "all insertions into all tests", "anchors": ["gerabaldi/sim.py:_sim_meas_step", "gerabaldi/sim.py:simulate"]}
{"id": "C43", "title": "The test summary has one row per executed step, in order, with consistent times", "statement": "When simulate succeeds, test_summary has exactly one row for each stress or measurement step, in order, numbered by its position in the test (objects of other types are skipped but still counted); each row's end time is its start time plus its duration, each start equals the previous row's end, the first starts at the initial elapsed time, measurement rows have zero duration, and the last end is the initial time plus the sum of all stress durations, provided no condition is named like one of the six standard columns.", "quantifier": "every test, model, environment and initial state", "why_tests_cant": "all step sequences", "anchors": ["gerabaldi/sim.py:simulate", "gerabaldi/sim.py:_sim_stress_step", "gerabaldi/sim.py:_sim_meas_step", "gerabaldi/models/reports.py:SimReport.add_summary_report"]}
{"id": "C44", "title": "Measurements are time-stamped with the accumulated stress time", "statement": "Each row of report.measurements carries the index of the measurement step that produced it and, as time, the initial elapsed time plus the sum of the durations of all stress steps before that step; the rows appear in step order.", "quantifier": "every test, model, environment and initial state", "why_tests_cant": "all step sequences", "anchors": ["gerabaldi/sim.py:_sim_meas_step", "gerabaldi/models/reports.py:SimReport.format_measurements", "gerabaldi/models/reports.py:SimReport.add_measurements"]}
{"id": "C45", "title": "Measurement tables label values with the right lot, chip and device", "statement": "format_measurements of an (L, C, D) array produces L*C*D rows, one for every (lot, chip, device) triple and no other, and the row labelled (l, c, d) holds element [l][c][d]; 2-D and 1-D inputs are treated as one lot, and one lot with one chip. Rows of environmental conditions carry no labels.", "quantifier": "every array shape and contents", "why_tests_cant": "all shapes and all rows", "anchors": ["gerabaldi/models/reports.py:SimReport.format_measurements"]}
{"id": "C46", "title": "A measurement of k samples yields one row per lot, chip and sample", "statement": "In a successful simulation, a measurement step of k samples of a degraded parameter adds exactly L*C*k rows for it, one for each lot, chip and device number below k; measuring an environmental condition with k sensors adds exactly k rows; the rows of a step appear grouped in the order of its measurement dictionary.", "quantifier": "every test, every state reachable in a simulation whose equations respect array shapes", "why_tests_cant": "all reachable states", "anchors": ["gerabaldi/sim.py:_sim_meas_step", "gerabaldi/models/phys_envs.py:PhysTestEnv.gen_env_cond_vals"]}
{"id": "C47", "title": "Measuring an undefined parameter raises KeyError, never MissingParamError", "statement": "If a measurement step requests a name that is neither a device parameter nor one of the step's conditions, the simulation raises KeyError while generating conditions (MissingParamError, the documented error, is unreachable for every test, model and state produced by gen_init_state).", "quantifier": "every test, model, environment", "why_tests_cant": "reachability claim over all states", "anchors": ["gerabaldi/sim.py:_sim_meas_step", "gerabaldi/models/phys_envs.py:PhysTestEnv.gen_env_cond_vals"]}
{"id": "C48", "title": "Array shapes are preserved through the whole simulation", "statement": "Starting from a generated state, after any number of steps every mechanism value array and every parameter value array of a degraded parameter still has shape (lots, chips, sample count), if the user equations respect array shapes.", "quantifier": "every test, model, environment", "why_tests_cant": "invariant over all step sequences", "anchors": ["gerabaldi/sim.py:_sim_stress_step", "gerabaldi/models/devices.py:DegPrmMdl.calc_deg_vals", "gerabaldi/models/devices.py:MechMdl.calc_deg_vals"]}
{"id": "C49", "title": "Simulation time must be a timedelta", "statement": "gen_init_state sets the elapsed time asked for (0 stands for an empty timedelta) and accepts a numeric one as documented, but any simulation from such a state that contains a stress step raises TypeError; from a timedelta the elapsed time at the end is the initial one plus the sum of all stress durations.", "quantifier": "every test containing a stress step", "why_tests_cant": "all tests", "anchors": ["gerabaldi/sim.py:gen_init_state", "gerabaldi/sim.py:_sim_stress_step"]}
{"id": "C50", "title": "JSON export and reload preserve times except in days", "statement": "Exporting a report and loading it back reproduces every measurement time, start time, end time and duration exactly for units hours, seconds, milliseconds and microseconds, for every timedelta below 10^16 microseconds (317 years; beyond that microseconds lose digits, witness); for days, whose JSON text keeps only 10 decimals, times are reproduced to within 4 microseconds but not exactly (witness). Every report produced by simulate for a test shorter than 317 years that measured something and whose conditions are not named like summary columns is covered.", "quantifier": "every report, every time unit", "why_tests_cant": "all timedeltas; the loss only appears for sub-5-microsecond residues in days", "anchors": ["gerabaldi/models/reports.py:SimReport.export_to_json", "gerabaldi/models/reports.py:SimReport.__init__"]}
{"id": "C51", "title": "JSON export and reload preserve measured values only to 10 decimals", "statement": "After export and reload every measured value v with v = 0 or 1e-15 <= |v| <= 10^16 - 1 is within 5e-11 of the original and a multiple of 1e-10; multiples of 1e-10 are exact and those of magnitude below 5e-11 (for example a picoampere current in amperes) come back as 0. Values outside that range keep ten significant digits (relative error at most 5e-10), so 1e-18 survives although 1e-12 does not.", "quantifier": "every measured value", "why_tests_cant": "all reals", "anchors": ["gerabaldi/models/reports.py:SimReport.export_to_json", "gerabaldi/models/reports.py:SimReport.__init__"]}
{"id": "C52", "title": "convert_report_time toggles the time column and corrupts a later export", "statement": "Applying convert_report_time with the same unit twice gives back the original timedeltas, not numbers; exporting after one conversion writes the measurement times through the inverse conversion: with the same unit a time of t microseconds comes back as (t quot 1000) whole units, so only 0 (and, in milliseconds, whole numbers of milliseconds) survives, while summary times are unaffected. An unknown unit raises UserConfigError, and is remembered: a later export without a unit then fails too. A report without measurements raises KeyError in both methods.", "quantifier": "every report and unit", "why_tests_cant": "histories of conversions and exports", "anchors": ["gerabaldi/models/reports.py:SimReport.convert_report_time", "gerabaldi/models/reports.py:SimReport.export_to_json"]}
{"id": "C53", "title": "htol builds a test with exactly the requested total stress", "statement": "htol(to_meas, ...) with a positive duration returns a test whose stress steps sum to exactly the requested duration, which begins and ends with a room-temperature measurement; with a positive interval smaller than and dividing the duration there are duration/interval stress steps each followed by a measurement at stress conditions, preceded by one such measurement; with an interval at least the duration there is exactly one stress step.", "quantifier": "every duration, interval, chip and lot count, voltage and temperature", "why_tests_cant": "all positive integers", "anchors": ["gerabaldi/cookbook/test_specs.py:htol"]}
{"id": "C54", "title": "htol rejects intervals that do not divide the duration and hangs on negative ones", "statement": "htol raises UserConfigError when a positive interval smaller than the duration does not divide it, ZeroDivisionError for interval 0, UserConfigError for duration 0 whatever the interval, and never returns for a negative interval that divides a positive duration.", "quantifier": "every duration and interval", "why_tests_cant": "all integers; non-termination is not testable", "anchors": ["gerabaldi/cookbook/test_specs.py:htol"]}
{"id": "C55", "title": "configure_logger keeps at most one plain stream and one plain file handler", "statement": "Starting from a logger with at most one plain StreamHandler and one plain FileHandler, after any sequence of configure_logger calls that pass plain FileHandlers only as file_handler and plain StreamHandlers only as stream_handler there is still at most one of each, the most recently supplied one is installed, and handlers of other types are never removed; handlers of subclasses (including the default installed by coloredlogs) are never replaced, so each supplied subclass handler accumulates. No handler is installed twice and the level is the last non-zero one supplied.", "quantifier": "every initial handler list and every sequence of calls", "why_tests_cant": "histories of calls", "anchors": ["gerabaldi/helpers.py:configure_logger"]}
{"id": "C56", "title": "Distribution parameters are translated consistently between libraries", "statement": "For Normal, Gamma and Uniform the parameters handed to numpy, pymc and pyro describe the same distribution (same mean and variance under each library's own parameterisation) for all admissible parameters; Deterministic supports none of them and always samples its value.", "quantifier": "every admissible parameter", "why_tests_cant": "all reals", "anchors": ["gerabaldi/models/random_vars.py:Normal", "gerabaldi/models/random_vars.py:Gamma", "gerabaldi/models/random_vars.py:Uniform", "gerabaldi/models/random_vars.py:Deterministic"]}
{"id": "C57", "title": "Samples evolve independently of one another", "statement": "For equations that act element by element and mechanisms whose equivalent time is exact or zero, the degradation of one sample in a stress step depends only on that sample's own condition values, latent values and prior values: changing other samples' data does not change it.", "quantifier": "every pair of states agreeing at one sample", "why_tests_cant": "all states, all samples", "anchors": ["gerabaldi/models/devices.py:MechMdl.calc_deg_vals", "gerabaldi/models/devices.py:FailMechMdl.calc_deg_vals"]}
{"id": "C58", "title": "A parameter called \"meas\" breaks the test environment", "statement": "PhysTestEnv.meas_instm(p) returns the instrument registered for p, or an ideal one if none was, for every parameter name p other than 'meas'; registering instruments or variation models for other names never changes it. vrtn_mdl(p) likewise returns the variation model registered for p or a neutral one. For 'meas' the attribute collides with the method of that name: measuring a parameter 'meas' fails with AttributeError, and registering an instrument for 'meas' makes every later instrument lookup fail.", "quantifier": "every parameter name and every set of registered instruments/variation models", "why_tests_cant": "all strings", "anchors": ["gerabaldi/models/phys_envs.py:PhysTestEnv.__init__", "gerabaldi/models/phys_envs.py:PhysTestEnv.meas_instm", "gerabaldi/models/phys_envs.py:PhysTestEnv.vrtn_mdl"]}
{"id": "C59", "title": "A supplied initial state is not augmented with circuit parameter dependencies", "statement": "When simulate is given an init_state, the report's counts are only those of measured parameters; a test with a stress step on a model with a degraded parameter that no step measures then never succeeds (it raises KeyError if that is the only degraded parameter, the first step is a stress step and its chip conditions can be generated), although the same test without init_state can succeed (witness).", "quantifier": "every test, model and initial state", "why_tests_cant": "for all initial states", "anchors": ["gerabaldi/sim.py:simulate", "gerabaldi/sim.py:_sim_stress_step", "gerabaldi/models/phys_envs.py:PhysTestEnv.gen_env_cond_vals"]}
{"id": "C60", "title": "Running a test in two parts gives the same result as running it in one", "statement": "Executing the steps of a concatenated test is executing the first part and then the second from the state, report and random streams the first left behind, with step numbers continuing: nothing else is carried between steps.", "quantifier": "every split of every test", "why_tests_cant": "all splits", "anchors": ["gerabaldi/sim.py:simulate"]}
{"id": "C61", "title": "A failed export leaves the latent variable changed", "statement": "cbi_export temporarily re-centres a Normal device layer of a variable that has a deterministic value; when a later layer cannot be exported the exception leaves the new centre in place, so variables sampled afterwards come from a different distribution than before the failed export (witness).", "quantifier": "some variable and target (existence of a counterexample to purity under exceptions)", "why_tests_cant": "needs the exceptional path followed by a sampling call", "anchors": ["gerabaldi/models/devices.py:LatentVar.cbi_export"]}
{"id": "C62", "title": "Exported distributions of a named variable carry distinct names", "statement": "Exporting a variable built with name n gives a device distribution named n (or n_dev when a chip or lot layer exists), a chip distribution n_chp exactly when a chip layer was given and a lot distribution n_lot exactly when a lot layer was given; these names are pairwise distinct. A layer assigned after the name keeps its own (possibly missing) name (witness).", "quantifier": "every layer combination, name, type and target", "why_tests_cant": "all names and layer combinations", "anchors": ["gerabaldi/models/devices.py:LatentVar.name", "gerabaldi/models/devices.py:LatentVar.cbi_export"]}
{"id": "C63", "title": "Exporting a reloaded report again gives the same JSON", "statement": "For every report whose values are 0 or of magnitude between 1e-15 and 10^16 - 1, exporting, loading and exporting again in the same unit yields exactly the same JSON, also in days; a value just below 1e-15 violates this: it is first rounded up to 1e-15 and then to 0 (witness).", "quantifier": "every report and time unit", "why_tests_cant": "all values and times", "anchors": ["gerabaldi/models/reports.py:SimReport.export_to_json", "gerabaldi/models/reports.py:SimReport.__init__"]}
{"id": "C64", "title": "The ideal environment applies conditions and measures exactly", "statement": "For every request that can be answered, the environment of ideal_env() consumes no randomness and every element of every condition array equals the requested condition value (provided adding 0 to it leaves it unchanged), with one array per requested parameter of the documented shape; every parameter is measured exactly, except one called 'meas', for which measuring fails with AttributeError (witness against the documentation).", "quantifier": "every request, condition set, device model, test information, chip and lot count and random state", "why_tests_cant": "all requests and random states", "anchors": ["gerabaldi/cookbook/test_envs.py:ideal_env", "gerabaldi/models/phys_envs.py:PhysTestEnv.gen_env_cond_vals"]}
{"id": "C65", "title": "The prebuilt voltage and temperature environment behaves as its figures say, not as its comments say", "statement": "volt_and_temp_env() varies only temperature and voltage, by offsets with the given spreads and with a separate generator per layer; any other parameter (except 'meas') is measured exactly. Temperature readings are the value plus the drawn error (mean -273.15) to 2 significant figures limited to -40..180, hence from 10 degrees on whole degrees and from 100 on multiples of ten; voltage readings have 3 significant figures within 0..12, hence from 1 V on multiples of 10 mV and from 10 V on of 100 mV. The comments promising hundredths of a degree and the nearest mV are refuted: 125 degrees reads 120, and 1.234 V reads 1.23.", "quantifier": "every value, error draw and generator state", "why_tests_cant": "all real values and errors", "anchors": ["gerabaldi/cookbook/test_envs.py:volt_and_temp_env", "gerabaldi/models/phys_envs.py:MeasInstrument.measure"]}
{"id": "C66", "title": "The prebuilt NBTI mechanism follows the JEDEC power law, sample by sample", "statement": "For the mechanism of jedec_nbti_mdl() and any arrays of positive prefactors, exponents, temperatures and voltages, every sample's shift is a_0*exp(e_aa/(k*temp))*vdd^alpha*time^n of its own values (0 at time 0). It grows strictly with time and (alpha > 0) with voltage, and falls strictly with temperature when e_aa > 0. The equivalent-time search recovers the earlier stress time of every sample to the stated tolerance if it converges. The four latent values per device are drawn from four separate generators with the documented means and spreads, with no chip or lot variation.", "quantifier": "every shape, array of samples and times; every generator state", "why_tests_cant": "all real values, arrays of any shape", "anchors": ["gerabaldi/cookbook/mech_mdls.py:jedec_nbti_mdl", "gerabaldi/models/devices.py:DegMechMdl.calc_equiv_strs_time"]}
{"id": "C67", "title": "Without an own equation a parameter is the sum of its parts, unless names are reserved", "statement": "With the default equation and mechanisms not called 'init' or 'cond', the degraded value of every sample is its initial value plus the neutral shift plus the values of all mechanisms, each advanced by itself from its own time, value and latents; latent variables of the parameter itself have no influence, except that one called 'mechs' is added like a mechanism. A mechanism called 'init' replaces the initial value; one called 'cond' removes the conditional shift from measurements and its latents replace those of the shift model (witnesses).", "quantifier": "every parameter model with the default equation, all states", "why_tests_cant": "all name sets and states", "anchors": ["gerabaldi/models/devices.py:DegPrmMdl.__init__", "gerabaldi/models/devices.py:DegPrmMdl.calc_deg_vals", "gerabaldi/models/devices.py:DegPrmMdl.calc_cond_shifted_vals", "gerabaldi/models/devices.py:DegPrmMdl.gen_latent_vals"]}
{"id": "C68", "title": "Building a model names its variables and changes nothing else", "statement": "Constructing a LatentMdl gives every variable without a name the first keyword it was passed under, keeps existing names, leaves other objects alone, and changes no sampled value: the model samples each variable exactly as it was passed, in keyword order. A variable passed under two keywords is sampled separately for each and bears the first name (witness); a variable 'a' with a chip layer and one called 'a_chp' are exported under the same name (witness).", "quantifier": "every set of variables, keywords and random state", "why_tests_cant": "all aliasing patterns and random states", "anchors": ["gerabaldi/models/devices.py:LatentMdl.__init__", "gerabaldi/models/devices.py:LatentMdl.gen_latent_vals", "gerabaldi/models/devices.py:LatentMdl.latent_var"]}
{"id": "C69", "title": "export_to_cbi works only for named models, with observations, and only for pymc", "statement": "LatentMdl.export_to_cbi succeeds only with target 'pymc', a model name and observations that include that name, and does succeed then if all variables can be exported and the arguments fit the equation; the equation receives the observed value for every observed name other than the model's own and the exported latent variable for names not observed, so an observation overrides a latent variable of the same name; the output spread is 1. Called with the default observed=None it raises TypeError, and for 'pyro' it always raises. Exports reach the variables in order up to the first that fails, which keeps the change its own export made to it.", "quantifier": "every model, name, target and observation dictionary", "why_tests_cant": "all combinations of names", "anchors": ["gerabaldi/models/devices.py:LatentMdl.export_to_cbi"]}
{"id": "C70", "title": "A well-posed experiment runs to the end", "statement": "simulate raises no exception if (environment) every variation model and instrument error can be drawn from, numbers have a leading digit where an instrument rounds, and no instrument is registered for 'meas'; (device) circuit parameters use degraded parameters only, every initial value depends on at least one latent variable, names do not clash, every equation computes on arrays of one shape when called with names it accepts (initial values and circuits on whole arrays, the others at least sample by sample), mechanisms have a place for the time, their units are known, and the names every equation requires are among its latent variables or the conditions of all steps it is used in, and a circuit's arguments have one number of devices; (test) what is measured is a parameter or a condition of the step other than 'meas', and no parameter of the device is superfluous. Environments, variation models and latent variables built by the constructors from valid parts meet the conditions, as do the default equations and all equations given by arithmetic formulas in their parameters.", "quantifier": "every environment, device, test, number of chips and lots, state of the random generators and iteration order of sets", "why_tests_cant": "absence of exceptions over all random numbers and all well-posed experiments", "anchors": ["gerabaldi/sim.py:simulate", "gerabaldi/sim.py:gen_init_state", "gerabaldi/sim.py:_sim_stress_step", "gerabaldi/sim.py:_sim_meas_step", "gerabaldi/models/devices.py:DegPrmMdl", "gerabaldi/models/devices.py:CircPrmMdl", "gerabaldi/models/phys_envs.py:PhysTestEnv.gen_env_cond_vals", "gerabaldi/models/phys_envs.py:MeasInstrument.measure"]}
{"id": "C71", "title": "A parameter value is its equation applied to the current mechanism values", "statement": "After any run that includes a stress, the value of every degraded parameter is what its own equation returns for the initial value, the neutral conditional shift, the current values of its mechanisms and its own latent values - nothing of earlier parameter values or conditions enters except through the mechanisms; with the default equation every sample is its initial value plus the neutral shift plus the sum of its mechanisms' current values. Before any stress the value is the initial value itself, whatever the equation.", "quantifier": "every environment, device, test, state, chip and lot count and random state; every sample", "why_tests_cant": "all executions; the reference value needs the internal state", "anchors": ["gerabaldi/sim.py:_sim_stress_step", "gerabaldi/models/devices.py:DegPrmMdl.calc_deg_vals", "gerabaldi/sim.py:gen_init_state"]}
{"id": "C72", "title": "The table of measurements shows the state at that moment, shifted and read by the instrument", "statement": "The rows of any measurement of a simulation (or of a continued one) come from the state the preceding steps produced: for a degraded parameter requested k times, the current values and latent values of the first k devices of every chip enter its own equation together with the shift computed from that measurement's conditions and the neutral value of every mechanism, and the result is read with the instrument registered under that name (drawn error, rounding, limits; exactly if there is none), row (l,c,d) being the device d of chip c of lot l. Every row carries the name of the parameter, the number of the step and, for a new simulation, the stress time accumulated before this step. If the equations are formulas, each device's value is the formula at that device's own numbers; with the default equation it is current value plus shift plus neutral values, and without instrument and shift the row shows the current value itself. Circuit parameters use the current degraded values, and measured conditions the applied condition.", "quantifier": "every environment, device, test, position of the measurement, chip and lot count and random state; every device", "why_tests_cant": "all executions; the true value behind a reading is not in the report", "anchors": ["gerabaldi/sim.py:_sim_meas_step", "gerabaldi/models/devices.py:DegPrmMdl.calc_cond_shifted_vals", "gerabaldi/models/phys_envs.py:MeasInstrument.measure", "gerabaldi/models/reports.py:SimReport.format_measurements"]}
{"id": "C73", "title": "Models are built from exactly the objects they are given", "statement": "Constructing a DegPrmMdl, CircPrmMdl or DeviceMdl: mech_mdl(name), latent_var(name) and prm_mdl(name) return the very objects given under these names, the lists of names are in the order given, and of the shared objects only names (a mechanism in a dictionary takes its last key, an unnamed latent variable its first) and unset time units (own, else of the first parameter of the device that has the mechanism, else of the device, else hours) change. It fails with UserConfigError exactly for a single part without a name. Exception: a mechanism named 'latent_y' beside a latent variable 'y_mdl' (or 'latent' beside 'mdl') is replaced by the latent variable.", "quantifier": "every heap of latent variables, mechanisms and parameters, every sharing between them, every dictionary of names", "why_tests_cant": "all sharing patterns and names; the clash needs two particular names", "anchors": ["gerabaldi/models/devices.py:DegPrmMdl.__init__", "gerabaldi/models/devices.py:DeviceMdl.__init__", "gerabaldi/models/devices.py:LatentMdl.__init__", "gerabaldi/models/devices.py:DegPrmMdl.propagate_time_unit"]}
{"id": "C74", "title": "The basic demonstration passes its own checks", "statement": "demos/basic_use.py --test exits with status 0 whatever random numbers are drawn: ten measured values, summary row 2 at 25 degrees (in kelvin), row 1 ending after 100 hours, five devices - for every number system in which 25 + 273.15 == 298.15 and 360000 / 3600 == 100, binary64 among them.", "quantifier": "every random generator, every state of it, every number system that satisfies the literal equations", "why_tests_cant": "all random numbers; the script has a single seedless run", "anchors": ["demos/basic_use.py:run_simulation", "demos/basic_use.py:entry"]}
{"id": "C75", "title": "The riverbed demonstration passes its own checks", "statement": "demos/riverbed_erosion.py --test exits with status 0 whatever random numbers are drawn: 550 measured values, row 33 an autumn season, row 42 a summer flow of 4, ten devices; for number systems without NaN (the instrument rounds to three digits, which fails for NaN).", "quantifier": "every random generator and state, number system without NaN, iteration order of sets", "why_tests_cant": "all random numbers", "anchors": ["demos/riverbed_erosion.py:run_simulation", "demos/riverbed_erosion.py:entry"]}
{"id": "C76", "title": "The pre-silicon demonstration passes its own checks", "statement": "demos/vts_paper_presilicon_variability.py --test exits with status 0 whatever random numbers are drawn and whatever np.exp and ** return: all six simulations (three tests, two processes, the second after reassigning the variation of three latent variables) end, with 2625 measured gains in the LTOL test, a voltage of 1.02 in row 29 of the ramp test, HTOL row 13 starting after 300 hours and five devices of the threshold voltage, which is needed only by the measured amplifier gain.", "quantifier": "every random generator and state, exponential and power function, number system that satisfies the literal equations, iteration order of sets", "why_tests_cant": "all random numbers and all functions np.exp and **", "anchors": ["demos/vts_paper_presilicon_variability.py:run_simulation", "demos/vts_paper_presilicon_variability.py:entry"]}
{"id": "C77", "title": "The oxide breakdown demonstration passes its own checks, except with a single sample", "statement": "demos/vts_paper_tddb_model_sensitivity.py --test exits with status 0 whatever random numbers are drawn and whatever ** returns: all five simulations end with 10500 measured values, row 339 at 0.87 V, row 31 lasting 122 hours and 100 devices. With NUM_SAMPLES set to any other number n but 1 every simulation ends with 105 n values; with NUM_SAMPLES = 1 the first measurement raises IndexError, because the equation for single samples accepts arrays of one element and returns a plain number (witness).", "quantifier": "every random generator and state, power function, number of samples, step value and number system that satisfies the literal equations", "why_tests_cant": "all random numbers and sample counts; the failing count is one particular number", "anchors": ["demos/vts_paper_tddb_model_sensitivity.py:defect_generator_demo_model", "demos/vts_paper_tddb_model_sensitivity.py:oxide_failed", "demos/vts_paper_tddb_model_sensitivity.py:single_test", "demos/vts_paper_tddb_model_sensitivity.py:entry", "gerabaldi/models/reports.py:SimReport.format_measurements"]}
{"id": "C78", "title": "A mechanism ages by every stress from the time its present value stands for", "statement": "In a simulation a degradation mechanism starts at its neutral value on all devices and only stress steps change it, one after the other: each stress finds for every device the time that would have produced its value under the conditions of this stress, adds the duration in the mechanism's own unit and evaluates the mechanism's equation there, with the device's own latent values and conditions (a value whose time exceeds 9e9 is kept; failure mechanisms count from time 0 and keep a value that is no longer neutral). Over the reals, in the ideal environment, with the same conditions in all stresses, n searches accurate to a relative error eps and an absolute error del leave every device at its law's value for a time tau with (1-eps)^n (T0 + total) - n del <= tau <= (1+eps)^n (T0 + total + n del), where total is the sum of the durations and T0 the time of the neutral value. However bad the searches are, the last stress leaves every device at its law's value for a time longer than this stress.", "quantifier": "every environment, device, test, mechanism, chip and lot count, random state and iteration order of sets; every lot, chip and device", "why_tests_cant": "all executions; the internal times are never reported", "anchors": ["gerabaldi/sim.py:_sim_stress_step", "gerabaldi/sim.py:simulate", "gerabaldi/models/devices.py:DegMechMdl.calc_equiv_strs_time", "gerabaldi/models/devices.py:DegPrmMdl.calc_deg_vals", "gerabaldi/models/devices.py:MechMdl.calc_deg_vals"]}
{"id": "C79", "title": "Measuring does not disturb the devices", "statement": "Two tests with the same stress steps in the same order and the same numbers of samples, simulated from the same generator states (and the same initial state, if one is given), leave the devices in the same final state, whatever and however often they measure in between and whatever instruments they use (the two environments need only agree in the variation of the stress conditions), provided no random generator is used both while stressing (variation of the stress conditions, random mechanism equations) and while measuring (instrument errors, variation of the measurement conditions, random equations). If a condition with random variation is used in both, one more measurement can change how the devices age. Where measuring involves no randomness at all, repeating a measurement step reports the same rows again under the new step number, and this at every state of the generators.", "quantifier": "every pair of environments, device, pair of tests, chip and lot count, initial state, generator state and iteration order of sets", "why_tests_cant": "all pairs of tests and all random states; the state is not reported and the generators are hidden", "anchors": ["gerabaldi/sim.py:simulate", "gerabaldi/sim.py:_sim_meas_step", "gerabaldi/sim.py:_sim_stress_step", "gerabaldi/models/phys_envs.py:PhysTestEnv.gen_env_cond_vals", "gerabaldi/models/phys_envs.py:MeasInstrument.measure", "gerabaldi/models/random_vars.py:RandomVar.sample"]}
{"id": "C80", "title": "A further degraded parameter leaves the others as they are", "statement": "Leave a degraded parameter out of a device and out of the measurements of a test: if the complete test can be simulated, so can the reduced one from the same generator states, and it gives the same final state without that parameter, the same measurement table without its rows and the same summary table. This needs that no circuit parameter uses it and that nothing it draws from (its latent variables and equations, the device-level variation of the conditions it depends on, its instrument's error) shares a generator with the rest of the simulation. If it depends on a condition with random device-level variation that another parameter depends on too, adding it can change the other parameter's results.", "quantifier": "every environment, device, degraded parameter, test, chip and lot count, generator state and iteration order of sets", "why_tests_cant": "all devices and random states", "anchors": ["gerabaldi/sim.py:simulate", "gerabaldi/sim.py:gen_init_state", "gerabaldi/sim.py:_sim_stress_step", "gerabaldi/sim.py:_sim_meas_step", "gerabaldi/models/devices.py:DeviceMdl.gen_init_state", "gerabaldi/models/phys_envs.py:PhysTestEnv.gen_env_cond_vals", "gerabaldi/models/test_specs.py:TestSpec.calc_samples_needed"]}
{"id": "C81", "title": "Circuit parameters need equal numbers of samples of everything they depend on", "statement": "A circuit parameter is computed from whole arrays: a degraded parameter comes with as many values per chip as the whole test needs of it at most, a latent variable with as many as the whole test needs of the circuit parameter, a condition with as many as this measurement asks for. If the equation is a formula, a simulation succeeds only if any two of these numbers are equal or one of them is 1; otherwise the measurement raises the ValueError of a failed broadcast. So a circuit parameter that depends on a condition cannot be measured in the same test with different numbers of samples, nor when more samples of a degraded parameter in it are wanted.", "quantifier": "every environment, device, test, formula, chip and lot count, random state and iteration order of sets", "why_tests_cant": "all combinations of requests in a test; the failing ones depend on measurements elsewhere in the test", "anchors": ["gerabaldi/models/devices.py:CircPrmMdl.calc_circ_vals", "gerabaldi/sim.py:_sim_meas_step", "gerabaldi/models/test_specs.py:TestSpec.calc_samples_needed", "gerabaldi/models/phys_envs.py:PhysTestEnv.gen_env_cond_vals"]}
{"id": "C82", "title": "At constant stress every measurement shows the initial value plus the laws at the accumulated stress time", "statement": "In a test whose stress steps all request the same conditions, in the ideal environment and over the reals, take a degraded parameter with the default equation whose mechanisms are degradation laws given by formulas. Then every measurement of it, wherever it stands in the test, reports, with the number of the step and the accumulated stress time, for each lot, chip and device the device's initial value plus the sum of its laws, each with the device's own latent values and at a time tau with (1-eps)^n (T0 + t) - n del <= tau <= (1+eps)^n (T0 + t + n del): t is the sum of the durations of the stresses before this measurement in the mechanism's own unit, n their number, T0 the time at which the law is 0, eps and del the errors of the searches for equivalent times. Before the first stress this is the initial value itself; other measurements and how the stress time is divided into steps do not matter beyond these errors. For laws that do not decrease with time the reading lies between the corresponding sums.", "quantifier": "every device, test at constant conditions, number of mechanisms, chip and lot count, random state and iteration order of sets; every measurement, lot, chip and device", "why_tests_cant": "all executions of all tests; initial and latent values are random and not reported", "anchors": ["gerabaldi/sim.py:simulate", "gerabaldi/sim.py:_sim_stress_step", "gerabaldi/sim.py:_sim_meas_step", "gerabaldi/models/devices.py:DegPrmMdl.calc_deg_vals", "gerabaldi/models/devices.py:DegMechMdl.calc_equiv_strs_time", "gerabaldi/models/devices.py:DegPrmMdl.calc_cond_shifted_vals"]}
{"id": "C83", "title": "Readings move in one direction only", "statement": "Take two measurements of the same degraded parameter in one test, over the reals, in any environment that has no instrument for this parameter, with any stresses before and between them, under whatever different conditions and whatever process variation; the parameter has the default equation and no conditional shift, and its mechanisms are degradation laws given by formulas. If under the conditions that the environment produced for each stress between the two measurements the laws do not decrease with time, and each search for an equivalent time falls short of a true one by no more than the duration of its stress, then every device that both measurements report reads at least as much the second time; and at most as much if the laws do not increase. This also holds beyond the limit of 9e9 time units. The condition on the searches follows from errors below the stress duration, and holds for any search result as long as the device still has its law's value at time 0.", "quantifier": "every device, test with two such measurements, stress conditions and durations, number of mechanisms, chip and lot count, random state; every lot, chip and device", "why_tests_cant": "all executions; a device that recovers by an unlucky search shows up only for particular values", "anchors": ["gerabaldi/sim.py:simulate", "gerabaldi/sim.py:_sim_stress_step", "gerabaldi/sim.py:_sim_meas_step", "gerabaldi/models/devices.py:DegMechMdl.calc_equiv_strs_time", "gerabaldi/models/devices.py:DegMechMdl.calc_deg_vals"]}
{"id": "C84", "title": "The search follows Brent's method", "statement": "Over the reals, a search between lo < hi with positive precision (in the logarithm, if requested) first evaluates lo + g (hi - lo) with g = (3 - sqrt 5)/2. After any evaluations E whose bracket (the nearest evaluated points on both sides of the best one, or the limits) is not yet short, it evaluates next the extremum of the parabola through the three best points if the step before the last one (how far that evaluation was from the best point of its time) exceeds the tolerance and the extremum lies in the bracket and at most half that step from the best point; otherwise the golden section of the longer side; in both cases moved so that the point keeps two tolerances from the ends of the bracket and one from the best point. It stops as soon as the bracket is short, or after maxiter further evaluations, and returns the last one of the points with the lowest value. No point is closer to an earlier one than the tolerance. On a parabola the interpolation aims at its minimum. In a vectorised search every element follows the method on its own evaluations until its own bracket is short.", "quantifier": "every function, limits, precision, machine epsilon, iteration limit, number of elements and random state; every evaluation", "why_tests_cant": "all functions and all intermediate evaluations; a wrong interpolation still converges, only slower", "anchors": ["gerabaldi/math/minimize.py:minimize"]}
{"id": "C85", "title": "Significant figures in double precision", "statement": "In binary64 arithmetic with the C library's logarithm wrong by at most a relative delta in the argument (10^p delta <= 1/8), an instrument with precision p from 1 to 15 and neither error nor limits reports every value x of size between 10^(p-21) and 10^(p+20) as the double nearest to a decimal number n 10^e of p significant digits with the sign of x and |n 10^e - x| <= (1/2 + 10^p 2^-53 9/8) 10^e; reading the reported values again changes nothing; a larger value never reads lower; zeros and infinities are reported as they are. The decimal number is not always the nearest one (1.15 to two digits reads 1.2, although the double is nearer to 1.1), and non-zero values below 7/8 10^(p-309) are reported as NaN, because 10 to the number of decimals overflows.", "quantifier": "every list of doubles, precision from 1 to 15, logarithm within the error bound, random state", "why_tests_cant": "2^64 values and all lists; the exceptions are single values or at the end of the exponent range", "anchors": ["gerabaldi/models/phys_envs.py:MeasInstrument.measure"]}
{"id": "C86", "title": "Parameters with random generators of their own can be simulated apart and in any order", "statement": "If a test can be simulated on a device, then any set of degraded parameters that no circuit parameter uses can be left out of the device and of the measurements, and the reduced simulation from the same generator states gives exactly what remains of the final state and of the measurement table, and the same summary table. This needs that each parameter left out uses random generators (for its latent variables and equations, the device-level variation of the conditions it depends on, its instrument's error) that neither another parameter nor the rest of the simulation uses. Hence, if all parameters are degraded ones with generators of their own, listing them in another order changes neither the values nor the measured rows of any of them. If two parameters depend on a condition with random device-level variation, the order matters: the draws are taken from the same generator (witness).", "quantifier": "every environment, device, set of degraded parameters, order, test, chip and lot count, generator state and iteration order of sets", "why_tests_cant": "all devices, subsets, orders and random states", "anchors": ["gerabaldi/sim.py:simulate", "gerabaldi/sim.py:gen_init_state", "gerabaldi/sim.py:_sim_stress_step", "gerabaldi/sim.py:_sim_meas_step", "gerabaldi/models/devices.py:DeviceMdl.gen_init_state", "gerabaldi/models/phys_envs.py:PhysTestEnv.gen_env_cond_vals"]}
{"id": "C87", "title": "A missing optional package fails the export, names the package and leaves the variable moved", "statement": "The library loads if and only if importing none of pymc, pyro, pyro.distributions and torch raises anything but ImportError or SystemError. With the modules a framework needs (pymc; torch, pyro and pyro.distributions), LatentVar.cbi_export and LatentMdl.export_to_cbi do what C19, C20, C62 and C69 say. If one is missing, cbi_export of a variable with a random device layer (Normal if there is a non-zero deterministic value) raises ImportError whose message names the first module needed and missing and the package to install, and export_to_cbi of a model with such variables raises the same. Unless that module is torch, the device layer is then left moved by the deterministic value: k failed attempts leave a Normal layer centred on mu + k v (offset variation) or mu v^k (scaling), so later simulations sample from a different distribution (witness).", "quantifier": "every combination of importable modules, framework, variable, model and number of attempts", "why_tests_cant": "all combinations of installed packages; the library is tested with all of them installed", "anchors": ["gerabaldi/helpers.py:_on_demand_import", "gerabaldi/models/random_vars.py:RandomVar.get_cbi_form", "gerabaldi/models/devices.py:LatentVar.cbi_export", "gerabaldi/models/devices.py:LatentMdl.export_to_cbi"]}
{"id": "C88", "title": "If the searches for equivalent times converge, every measurement at constant stress shows the laws at the accumulated stress time up to 0.002 % and 0.0011 units per stress step", "statement": "Take the tests and parameters of C82, every stress at least 0.001 units of the mechanism's time long, laws that are 0 at time 0 and go strictly in one direction, at most 2.9 billion units of stress and at most 50000 stress steps before the measurement. If every search for an equivalent time that the simulation makes ends by reaching the tolerance (not by exhausting its 50 iterations), then every measurement reports for each lot, chip and device the initial value plus the sum of its laws at times tau with (1-e)^n t - n d <= tau <= (1+e)^n (t + n d), e = 1/50000, d = 0.0011, t the accumulated stress time in the mechanism's unit and n the number of stresses so far: a fresh device's search ends within 2 tolerances of the lower limit 0.001 and every later one at the true equivalent time up to e. In particular an HTOL test from the cookbook on a parameter with only the JEDEC NBTI mechanism reports at every read point the initial value plus A0 exp(Ea / kT) V^alpha tau^n with the device's own latent values, the stress temperature in kelvin and the multiplied supply voltage, tau being the hours of stress up to these errors.", "quantifier": "every device, test at constant conditions, law in one direction, chip and lot count, random state and iteration order of sets; every measurement, lot, chip and device; every HTOL duration, interval, temperature and voltage", "why_tests_cant": "all executions of all tests; the errors of up to 50000 successive floating searches cannot be observed separately and latent values are random and not reported", "anchors": ["gerabaldi/sim.py:simulate", "gerabaldi/sim.py:_sim_stress_step", "gerabaldi/models/devices.py:DegMechMdl.calc_equiv_strs_time", "gerabaldi/math/minimize.py:minimize", "gerabaldi/cookbook/test_specs.py:htol", "gerabaldi/cookbook/mech_mdls.py:jedec_nbti_mdl"]}
{"id": "C89", "title": "In double precision the search for a minimum keeps to its limits, finds numbers where the function has numbers, and returns the first guess where it has none", "statement": "Take IEEE 754 double arithmetic and any base-10 logarithm and exponential. Let the limits be at least the absolute tolerance apart and at most 10^12 absolute tolerances large, the absolute tolerance between 10^-30 and 10^30 and the relative one at most 0.001. (1) A search with one problem calls its function only at NaN or at (powers of ten of) doubles between the limits, and what it finds is of that kind, whatever the function returns: infinities and NaN included. (2) If every value is finite and at most 2^400, NaN does not occur. (3) With an array of problems, points lie outside the limits by at most (relative tolerance times the largest allowed point plus 9/8 of the absolute tolerance) per round. (4) A position whose values are all NaN gives the first guess, the golden section of the limits. (5) Hence every equivalent stress time that a degradation mechanism computes is NaN or between 0.000998 and 10020100000 units, provided the logarithm and the exponential are accurate to 10^-6 and one part in 1000; a device whose degradation is NaN gets the power of ten of the first guess, about 92 units, and no error. (6) Without room for rounding (1) is false: from 1 to the next double with a tolerance of half their distance the function is called below 1.", "quantifier": "every function on arrays, every limit, precision, machine epsilon and iteration count within the stated ranges, every array size, mechanism law, condition and latent value; all doubles", "why_tests_cant": "the doubles, the functions and the sequences of up to maxiter roundings cannot be enumerated; tests run laws without NaN or infinities", "anchors": ["gerabaldi/math/minimize.py:minimize", "gerabaldi/models/devices.py:DegMechMdl.calc_equiv_strs_time"]}
{"id": "C90", "title": "Exceptions of equations come out of a simulation unchanged, and others have their reason", "statement": "(1) Change equations of a device so that, for arguments of their choice, they raise exceptions instead of returning: every simulation of a test then does exactly as before or raises one of these exceptions. For the equations of initial values and circuit parameters these may be any exceptions, for all others any except ValueError. (2) For ValueError it is false: raised for arrays it makes the simulation call the equation sample by sample, and the values of that are reported. (3) If the equations of a device raise only exceptions X, a simulation raises only exceptions X, KeyError, TypeError, AttributeError, ValueError or IndexError, ZeroDivisionError if the device or the environment has a gamma distribution with rate 0, and UserConfigError if a mechanism has an unknown time unit; in particular never MissingParamError, NotImplementedError or InvalidTypeError. All of these occur with equations that raise nothing. (4) An equation called sample by sample that returns an array of several numbers or none raises ValueError, one that returns a dictionary TypeError. (5) A mechanism law that returns an array whose last dimension fits neither 1 nor the number of devices raises ValueError.", "quantifier": "every device, environment, test, initial state and random stream; every change of the equations and every choice of when to raise; every set of exceptions", "why_tests_cant": "which calls raise, and when, are arbitrary predicates on all arguments of all calls of a simulation; tests try single faults", "anchors": ["gerabaldi/sim.py:simulate", "gerabaldi/models/devices.py:MechMdl.calc_deg_vals", "gerabaldi/models/devices.py:DegPrmMdl.calc_deg_vals", "gerabaldi/models/devices.py:CircPrmMdl.calc_circ_vals", "gerabaldi/helpers.py:_loop_compute"]}
{"id": "C91", "title": "Under changing conditions degradation is one curve of the accumulated exposure: equal exposures give equal readings, in whatever order and however accelerated", "statement": "Let the law of a mechanism be, under each condition that the test imposes, a fixed curve of each device that goes strictly in one direction, passed through at a rate that the condition and the device determine; call the sum of rate times duration over the stresses the exposure. (1) If every equivalent time found is right up to a relative error e and an absolute error d, the degradation after any sequence of stresses is the curve at an exposure Y with (1-e)^n X - d R <= Y <= (1+e)^n (X + d R), X the exposure including what the device had before, n the number of stresses and R the sum of their rates. (2) Searches that converge are that accurate with e = 1/50000 and d = 0.0011, under all conditions and whatever mixture of fresh, hardly aged and aged devices one search is for; stresses may be arbitrarily short. (3) So, without variation in the environment, every measurement of an additive parameter shows the initial value plus the curves at the exposures so far up to these errors. (4) Two tests from the same random state that ask for the same numbers of samples and expose the devices equally show the same initial values and hence readings that differ only by the curves at exposures within these bounds of the same X: a short accelerated test replaces a long one. (5) The same stresses in another order are an equal exposure. (6) The cookbook's NBTI mechanism is such a law, with the power n as its curve; the ratio of its rates at (T,V) and (T',V') is exp(Ea/(n k) (1/T - 1/T')) (V/V')^(alpha/n).", "quantifier": "every device, environment (1, 2) or ideal environment (3, 4), test, curve, rate function, chip and lot count, random state; every number and order of stresses; every measurement, lot, chip and device", "why_tests_cant": "all sequences of conditions and all curves; the equivalent times and exposures are internal and latent values random", "anchors": ["gerabaldi/sim.py:simulate", "gerabaldi/sim.py:_sim_stress_step", "gerabaldi/models/devices.py:DegMechMdl.calc_equiv_strs_time", "gerabaldi/models/devices.py:DegMechMdl.calc_deg_vals", "gerabaldi/math/minimize.py:minimize", "gerabaldi/cookbook/mech_mdls.py:jedec_nbti_mdl"]}
{"id": "C92", "title": "Every device has exactly one row per measurement that asks for it, and no other rows exist", "statement": "In the report of a simulation, the rows of a degraded parameter with lot a, chip b and device number c are, in order, exactly one for each measurement of the test that asks for more than c devices of that parameter, carrying the number of that step in the sequence and the sum of the durations of the stresses before it (1). Every row of the parameter is one of these, for a lot and chip that exist (2). So parameter, lot, chip, device and step number determine a row, and a later row of the same device is of a later step (3): filtering the table by device gives the time series of that device.", "quantifier": "every device with regular equations, environment, test, chip and lot count, random state; every degraded parameter, lot, chip and device number", "why_tests_cant": "all tests and all sample counts; tests look at a few fixed tables", "anchors": ["gerabaldi/sim.py:simulate", "gerabaldi/sim.py:_sim_meas_step", "gerabaldi/models/reports.py:SimReport.format_measurements", "gerabaldi/models/reports.py:SimReport.add_measurements"]}
{"id": "C93", "title": "The options of the demonstration scripts: checks, saved reports, and data that cannot be checked again", "statement": "Without a data file or directory, each of the four demonstration scripts run with --test ends with status 0, and with --save-data it leaves in its data directory exactly the exported reports of its simulations (one file per report, under the documented name) and changes no other file; without --save-data it changes no file. With --data-file, basic_use.py and riverbed_erosion.py run with --test never end with a status: they raise for every file, and with the file they have saved themselves they raise AttributeError (a report read from a file has no dev_counts). With --data-dir, the two scripts of the paper always raise, with or without --test; with the files they have saved themselves they raise TypeError (the reports are put in a set).", "quantifier": "every state of the files, random state and location of the script; every data file and directory", "why_tests_cant": "no test runs the scripts with saved data; all file contents and random states", "anchors": ["demos/basic_use.py:entry", "demos/riverbed_erosion.py:entry", "demos/vts_paper_presilicon_variability.py:entry", "demos/vts_paper_tddb_model_sensitivity.py:entry", "gerabaldi/models/reports.py:SimReport.__init__", "gerabaldi/models/reports.py:SimReport.export_to_json"]}
{"id": "C94", "title": "The demonstration scripts draw the readings of their reports, with exact averages and ranges", "statement": "basic_use.py draws five curves: curve c has one point per row of device c, with the reading of the row at its time in hours (0 and 100). riverbed_erosion.py draws, for each of five rivers, ten curves of eleven points, with the readings of place c of that river at 0 to 10 years, and a band: at each time the average is the sum of the ten readings over ten, and the range contains all of them; it ends at a reading wherever that is below 1000 (lower end) or above -1000 (upper end), so the average is within the range. vts_paper_presilicon_variability.py draws, for each of its six simulations in order, the average and range over the 125 circuits at the measurement times (ramped cycling: 0, 90, 100, 190, 200, ... 1000 hours; the others: every 50 hours up to 1000), and, for the four that are not ramped, the final reading of every circuit. Drawn from the files saved by the script, basic_use.py and riverbed_erosion.py show the same points, up to the ten decimals kept for a reading.", "quantifier": "every random state, state of the files and location of the script", "why_tests_cant": "drawn data are not compared by any test; all random states", "anchors": ["demos/basic_use.py:visualize", "demos/riverbed_erosion.py:visualize", "demos/vts_paper_presilicon_variability.py:visualize"]}
{"id": "C95", "title": "Failures last, and the lifetimes drawn by the oxide demonstration are those of its readings", "statement": "(1) If all mechanisms of a parameter are hard failures, and its equation, once it gives a failed value, still gives one when further mechanisms are triggered or when it is given its own failed value as initial value, and never gives a failed value from a working one with no mechanism triggered, then in every simulation the readings of a device that come after a failed reading are failed. (2) In vts_paper_tddb_model_sensitivity.py each of the 100 transistors at each stress level reads 1 in the first measurement, and its 105 weekly readings are ones followed by zeros: no transistor recovers. (3) The lifetime that the script draws for a transistor is 168 hours times the number of its readings that are one, and it is censored exactly if it never reads zero.", "quantifier": "every device, test, environment without a sensor for the parameter, shape, starting state of the generator (1); every random state, state of the files and location of the script (2, 3)", "why_tests_cant": "a single failing device does not show that none recovers; demonstration scripts have no tests", "anchors": ["gerabaldi/models/devices.py:FailMechMdl", "gerabaldi/sim.py:_sim_stress_step", "demos/vts_paper_tddb_model_sensitivity.py:visualize", "demos/vts_paper_tddb_model_sensitivity.py:oxide_failed"]}
{"id": "C96", "title": "A report shows only what the instruments can show, and such a report is saved exactly", "statement": "For every value in the report of a simulation whose parameter has an instrument: (1) it is some number rounded to the figures of the instrument and then limited to its range; (2) in ordered number systems without NaN limits it lies within the range or is NaN; (3) over the reals, with a precision of p > 0 figures, it is a limit of the range or has at most p decimal digits. (4) If every measured parameter has an instrument with p > 0 figures whose limits have at most p digits, and every non-zero value is at least 10^(p-11) in size, then exporting the report and loading it again gives back every measured value and time exactly, although the file keeps only ten decimals.", "quantifier": "every device, test, environment, shape, starting state and random state; every documented time unit other than the day (4)", "why_tests_cant": "no finite set of readings shows that none lies outside the range or carries more digits; the loss of digits in the file depends on the size of the values", "anchors": ["gerabaldi/models/phys_envs.py:measure", "gerabaldi/sim.py:_sim_meas_step", "gerabaldi/models/reports.py:export_to_json"]}
{"id": "C97", "title": "append_steps works on objects: the own list of a test doubles, and repeated cycles are the same steps", "statement": "With steps and lists as objects: (1) if the argument of append_steps is a step, or a list object other than the one the test keeps, the outcome is that of C01-C05, the steps are unchanged and only the tests that keep the same list object see the new steps. (2) If it is the test's own list, it is doubled. (3) With loop_for_duration each pass doubles it again and then counts the whole list: the test ends with 2^n times its steps, where n is the least number of passes whose counted time reaches the duration, and the counted time is exactly twice the stress time that was added; so a loop may end, without a warning, with half of the requested stress time (refutation). (4) Without net stress it never ends. (5) The cycles of a looped append are the same step objects: assigning step.duration changes the stress time of the test by that difference for every occurrence.", "quantifier": "every sequence of operations that builds steps, lists and tests; every duration, unit and step list", "why_tests_cant": "aliasing of lists and steps depends on how a program builds its tests; value-based tests never pass the same object twice", "anchors": ["gerabaldi/models/test_specs.py:append_steps"]}
{"id": "C98", "title": "The limited range of timedeltas only ever adds an OverflowError, and when it does is known exactly", "statement": "With timedeltas limited, as in Python, to -999999999 days .. just under 1000000000 days: (1) StrsSpec raises UserConfigError for an unknown unit or a duration that rounds to 0, OverflowError for a number of units that rounds outside the range, and otherwise holds the nearest microsecond. (2) append_steps with a number outside the range raises OverflowError and leaves the test alone. If every partial sum that the loop forms is in range (in particular if no duration is negative and the requested duration plus one cycle is in range) the outcome is that of C01-C05. Otherwise it ends with OverflowError after the pass with the first sum out of range, having appended that pass too; a cycle with negative net stress always ends so. It runs for ever if and only if the duration is positive, the net stress of a cycle is zero and the partial sums of one cycle are in range. (3) simulate either behaves as without limits or raises OverflowError; it is the former if the start time plus every partial sum of the stress durations is in range, and a simulation that would succeed raises OverflowError if some sum is not; a successful one proves that all were in range.", "quantifier": "every number, unit, cycle, duration, device, environment, test, start time and random stream", "why_tests_cant": "tests never come near a billion days, and which of the sums overflows first depends on the whole sequence", "anchors": ["gerabaldi/helpers.py:_convert_time", "gerabaldi/models/test_specs.py:StrsSpec.__init__", "gerabaldi/models/test_specs.py:append_steps", "gerabaldi/sim.py:_sim_stress_step", "gerabaldi/sim.py:simulate"]}
{"id": "C99", "title": "gen_init_state leaves the caller a dictionary of counts that grows to exactly what the device wants", "statement": "gen_init_state writes the samples it finds to be needed into the dictionary of counts it was given, also when it then raises. For any number of calls with the same dictionary and device, whatever their other arguments and whether or not they succeed: no name is removed and no number lowered, and every entry is a number of samples that the first dictionary asked for or that is needed, directly or through other circuit parameters, for something it asked for. After at least one call less than the device has parameters (after one call, if no circuit parameter uses another) each entry is the greatest such number, every name with such a number is there, and further calls change nothing. A call that succeeds leaves an entry for every parameter of the device. So a failing call may succeed when simply repeated (refuted: failures are repeatable), and a dictionary that was used for one device can make another device's samples more than were asked for (refuted: reuse is harmless).", "quantifier": "every device, dictionary, sequence of calls, numbers of chips and lots, elapsed times and random streams", "why_tests_cant": "tests build a fresh literal dictionary for each call, so the writes are never seen", "anchors": ["gerabaldi/sim.py:gen_init_state", "gerabaldi/models/devices.py:CircPrmMdl.get_required_prms"]}
{"id": "C100", "title": "An equation may compute in the array of times of its mechanism, and in no other array it is given, without changing any result", "statement": "The library calls the equations of a device with the arrays of the simulation state (initial and latent values, values of conditions, current values, as slices when fewer are measured), not with copies, and calls them again when they raise ValueError. Suppose every equation, run on arrays, has the outcome that it has on their values, and writes to no array that it is given, except that an equation of a mechanism may write to the array of times if it then neither raises ValueError nor returns an array of another shape, and that no latent value of a mechanism or its conditional part and no condition is called 'time'. Then a test run on arrays gives exactly the report, or exception, and the random numbers of the run on values; the state it ends with shows the values of that run; and none of the arrays there were before is changed. The conditions are met by every equation that makes new arrays and by every mechanism equation that computes in its times. They are not idle: with equations that have the right outcome on every call, `init += cond; return init` makes a second measurement show a sum added twice, `time *= 60` before a test that raises ValueError for arrays is applied twice to every element, computing in a latent array changes what later steps do, converting the times in place and returning an array that does not fit the current values makes the search for the equivalent time compare with values converted twice, and a condition called 'time' is an array that the mechanisms of a parameter share, so that the second reads what the first left there (each proved as a refutation).", "quantifier": "every number type, device, environment, test, initial state, heap of arrays and code of equations meeting the conditions, random streams and set order", "why_tests_cant": "the equations of the tests and demos make new arrays; whether others are safe depends on which arrays they share with later calls", "anchors": ["gerabaldi/sim.py:_sim_stress_step", "gerabaldi/sim.py:_sim_meas_step", "gerabaldi/sim.py:simulate", "gerabaldi/models/devices.py:MechMdl.calc_deg_vals", "gerabaldi/models/devices.py:DegPrmMdl.calc_cond_shifted_vals", "gerabaldi/helpers.py:_loop_compute"]}
{"id": "C101", "title": "Means, variances and correlations of generated samples are those of the layers", "statement": "Let the draws of one call of gen_latent_vals have the means and variances of the distributions the user gave, and let no two be correlated. After any assignments, with offset layers, every element of the array has the mean deter + lot + chip + device, and the covariance of two elements is the sum of the variances of the layers they share: the lot variance for devices of one lot, plus the chip variance on one chip, plus the device variance for an element and itself; devices of different lots are uncorrelated. With scaling layers and independent draws the mean is the product of the means, and the expected product of two elements is the product over the layers of the second moment where they share the layer and of the squared mean where they do not. The same holds for gen_env_vrtns around the base value, where all devices share the batch layer. A gamma distribution given by rate beta has mean alpha/beta and variance alpha/beta^2. An instrument with an error distribution shifts every reading by its mean, adds its variance to the variance of every reading and adds no correlation between readings. Distinct generators made with the same test_seed break the condition, and then the variances do not add up although every single generator is ideal (proved as a refutation).", "quantifier": "every history of assignments, distributions, L, C, D and pair of indices; every expectation functional (normalised, positive, linear) over the initial generator states and every generator whose draws meet the condition", "why_tests_cant": "moments are statements about all random states at once; tests compare a few seeded samples", "anchors": ["gerabaldi/models/devices.py:LatentVar.gen_latent_vals", "gerabaldi/models/phys_envs.py:EnvVrtnMdl.gen_env_vrtns", "gerabaldi/models/phys_envs.py:MeasInstrument.measure", "gerabaldi/models/random_vars.py:Gamma.sample"]}
{"id": "C102", "title": "Every value of a generated state, and every first reading, follows the layers of its own latent variable", "statement": "Let all draws that gen_init_state makes have the means and variances of the distributions of the device and be independent. Then every latent value in the state (of a parameter itself, of its conditional shift, of a mechanism) and every initial value computed by the default equation has the mean that the layers of its latent variable give, two elements of one variable are correlated as its shared layers say, and elements of different variables, whether of one parameter or of different ones, are uncorrelated: no variable is sampled from the numbers of another. For a test that begins with a measurement, the rows that simulate reports for a parameter with default equations and no instrument have exactly these means, variances and correlations, whatever steps follow: the measured population is the one that was described.", "quantifier": "every device without name clashes whose initial-value equations draw no random numbers, counts, L, C, rest of the test and pair of elements; every expectation functional over the initial generator states under which the draws meet the condition", "why_tests_cant": "moments are statements about all random states at once; the independence of different variables is visible in no single run", "anchors": ["gerabaldi/sim.py:gen_init_state", "gerabaldi/sim.py:simulate", "gerabaldi/models/devices.py:DeviceMdl.gen_init_state", "gerabaldi/models/devices.py:DegPrmMdl.gen_latent_vals", "gerabaldi/models/devices.py:DegPrmMdl.gen_init_mech_vals"]}
{"id": "C103", "title": "Saving a report writes exactly one file, makes at most one directory and never costs another file", "statement": "export_to_json with a file, for a path made of ordinary names (absolute or relative to the current directory): it succeeds exactly if the report can be exported, the directory of the path exists or is the only one missing, and the path is not that of a directory. Then the JSON of the report is at the path, reading the same path gives it back, the directory exists, and nothing else has changed (an existing file at the path is replaced). Otherwise nothing has changed and the exception tells what is in the way: IsADirectoryError for a directory at the path, FileExistsError for a file in the place of its directory, NotADirectoryError for a file further up, FileNotFoundError for a missing directory further up, or the exception of the export. For every text of a path, with '.', '..' and repeated or trailing slashes: at most one directory is made, where there was nothing; a file is written exactly if a path is given and no exception is raised, never in place of a directory; nothing else changes, and no exception changes or removes a file. That an exception leaves nothing behind is false: 'results/' raises IsADirectoryError and leaves the directory (proved as a refutation). Reports saved one after the other in one directory are all there, those before one that cannot be exported included. The demonstration scripts save under such paths, in the directory 'data' next to them, which need not exist.", "quantifier": "every tree of directories and files, current directory, path, report, time unit and list of reports", "why_tests_cant": "all shapes of directory trees and path texts; which errors leave something behind shows only in the failing cases", "anchors": ["gerabaldi/models/reports.py:SimReport.export_to_json", "gerabaldi/models/reports.py:SimReport.__init__", "demos/vts_paper_presilicon_variability.py:run_simulation", "demos/basic_use.py:entry"]}
{"id": "C104", "title": "Degradation without latent variables moves a population as a whole: means shift, variances and correlations stay", "statement": "Take a test in the ideal environment and a parameter with the default equation, no conditional shift and one latent variable for its initial value, whose degradation mechanisms follow formulas and have no latent variables. What a measurement shows of a device is then its initial value plus a shift that depends on the measurement but neither on the device nor on any random number: two devices of the parameter, in one run or in two runs that differ in their random streams, show the same difference between reading and initial value, although the shift comes out of the numeric searches for equivalent times. So, over independent draws, the mean of a reading is the mean that the layers of the latent variable give plus the shift; the covariance of any two readings of the parameter, at the same or at different times, is the one that the layers give for two devices (for one device the variance of the initial value); and readings of different such parameters are not correlated.", "quantifier": "every device, test, number of lots, chips and devices, pair of measurements, parameters and devices, random streams, set order, and every expectation under which the draws are independent with their means and variances", "why_tests_cant": "equality of distributions over all seeds; the shift is a numeric search's result and has no closed form to compare with", "anchors": ["gerabaldi/sim.py:simulate", "gerabaldi/models/devices.py:DegMechMdl.calc_equiv_strs_time", "gerabaldi/models/devices.py:DegPrmMdl.calc_deg_vals", "gerabaldi/models/devices.py:LatentVar.gen_latent_vals"]}
