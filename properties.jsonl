{"id": "C01", "title": "Clause semantics (classic)", "statement": "In a fitted classic estimator a clause fires on a sample exactly when every included literal is satisfied: every feature whose positive automaton is non-negative is 1 and every feature whose negated automaton is non-negative is 0; during prediction a clause with no included literal at all outputs 0. The result does not depend on the configured tile size, nor on the order or interleaving in which the OpenMP threads process the clauses.", "quantifier": "every automaton matrix, every 0/1 sample of every length, every tile size, every iteration order of the parallel loop", "why_tests_cant": "unbounded feature counts around tile boundaries combined with every thread schedule", "anchors": ["lib/src/tsetlini_algo_classic.hpp: calculate_clause_output_T, calculate_clause_output_with_pruning_T, action", "lib/src/tsetlini_algo_common.hpp"]}
{"id": "C02", "title": "Clause semantics (bitwise)", "statement": "In a bitwise estimator a clause computed with 64-bit blocks fires exactly when every included literal (polarity bit set) is satisfied by the sample's bits, provided padding bits are clear; clauses without literals output 0 in prediction. Result independent of tile size and thread schedule.", "quantifier": "every polarity matrix with clear padding, every bit sample with clear padding, every size/tile/schedule", "why_tests_cant": "block boundaries, padding and schedules form an unbounded space", "anchors": ["lib/src/tsetlini_algo_bitwise.hpp: calculate_clause_output_T, calculate_clause_output_with_pruning_T"]}
{"id": "C03", "title": "Classic and bitwise inference agree", "statement": "If a bitwise estimator's polarity bits are the signs of its automata, then for the same automata, weights and the same sample (packed or unpacked) the classic and bitwise estimators compute identical clause outputs, decision function values and predictions.", "quantifier": "every pair of corresponding models and samples", "why_tests_cant": "equivalence of two implementations over all inputs", "anchors": ["lib/src/tsetlini_algo_classic.hpp", "lib/src/tsetlini_algo_bitwise.hpp"]}
{"id": "C04", "title": "Decision function is the clamped weighted vote", "statement": "decision_function returns for every label l the sum over the label's clauses that fire of +(1+weight) for even-indexed and -(1+weight) for odd-indexed clauses (weight 0 when unweighted), clamped to [-threshold, threshold]; hence every entry is within [-threshold, threshold] and there is one entry per label.", "quantifier": "every fitted model, every valid sample", "why_tests_cant": "all weights and clause counts; overflow only visible at extreme weights", "anchors": ["lib/src/tsetlini_algo_classic.hpp: sum_up_label_votes, sum_up_all_label_votes", "lib/src/tsetlini.cpp: predict_classifier_raw_impl"]}
{"id": "C05", "title": "Predicted label is the first maximum", "statement": "predict returns a label in [0, number_of_labels) whose decision_function value is maximal, and the smallest such label in case of ties.", "quantifier": "every fitted model and valid sample", "why_tests_cant": "ties and arbitrary number of labels", "anchors": ["lib/src/tsetlini.cpp: predict_classifier_impl"]}
{"id": "C06", "title": "Batch equals single", "statement": "predict(X) and decision_function(X) on a batch return exactly the list of the results of the single-sample calls, in order, for all four estimators.", "quantifier": "every fitted model and every valid batch", "why_tests_cant": "hidden cache carry-over between samples could only be excluded for all batches by proof", "anchors": ["lib/src/tsetlini.cpp: predict_classifier_impl, predict_classifier_raw_impl, predict_regressor_impl"]}
{"id": "C07", "title": "Regressor prediction is the clamped weighted clause count", "statement": "RegressorClassic/RegressorBitwise predict returns the number of firing clauses (each counted 1+weight), clamped to [0, threshold].", "quantifier": "every fitted regressor and valid sample", "why_tests_cant": "all weights/clauses", "anchors": ["lib/src/tsetlini_algo_classic.hpp: sum_up_regressor_votes", "lib/src/tsetlini.cpp: predict_regressor_impl"]}
{"id": "C08", "title": "Prediction input validation is a decision table", "statement": "predict and decision_function never invoke undefined behaviour or throw on a reachable estimator; they return S_NOT_FITTED_ERROR iff the estimator was never fitted, otherwise S_VALUE_ERROR iff the batch is empty, ragged, has the wrong number of features, a value other than 0/1 or a set padding bit, and a value otherwise.", "quantifier": "every reachable estimator state (any history of calls) and every argument", "why_tests_cant": "all malformed inputs in all histories", "anchors": ["lib/src/tsetlini.cpp: check_for_predict"]}
{"id": "C09", "title": "Prediction has no observable side effect", "statement": "Calling predict, decision_function or evaluate any number of times never changes the model, the generators or the parameters, and does not alter the result of any later training or prediction.", "quantifier": "every history of interleaved const calls and training calls", "why_tests_cant": "requires all histories: cached buffers are mutable and shared", "anchors": ["lib/src/tsetlini.cpp", "lib/src/estimator_state_cache.hpp"]}
{"id": "C10", "title": "Evaluate is the accuracy", "statement": "evaluate(X, y) on valid inputs returns the fraction of samples whose predicted label equals y as a float within [0,1], exactly 1.0 when all are right and exactly 0.0 when all are wrong.", "quantifier": "every fitted classifier, every data set with at least one sample", "why_tests_cant": "floating point rounding over all sizes", "anchors": ["lib/src/tsetlini.cpp: evaluate_classifier_impl"]}
{"id": "C11", "title": "Evaluate does not validate its input", "statement": "evaluate performs no validation (defect), unlike predict and fit: on an estimator that was never fitted it throws, when y is shorter than X it reads beyond the end of y (undefined behaviour), and on an empty X it returns not-a-number.", "quantifier": "every estimator and argument", "why_tests_cant": "malformed inputs", "anchors": ["lib/src/tsetlini.cpp: evaluate_classifier_impl"]}
{"id": "C12", "title": "Automaton states stay in range", "statement": "After any sequence of fit / partial_fit calls (and of predictions in between), every automaton state of every classic estimator, and of every bitwise estimator with number_of_states >= 2 (see C14 for 1), is within [-number_of_states, number_of_states - 1], the value always fits the selected counting type, and no store ever wraps.", "quantifier": "every history, every parameter set accepted by the factory, every random stream", "why_tests_cant": "needs an invariant over unbounded training histories", "anchors": ["lib/src/tsetlini_algo_classic.hpp: block1, block2, block3", "lib/src/tsetlini_algo_bitwise.hpp: block1_sparse, block2, block3"]}
{"id": "C13", "title": "Polarity bits equal automaton signs", "statement": "In a bitwise estimator with number_of_states >= 2, after any history, the polarity bit of a literal is set iff its automaton state is non-negative and padding bits are clear.", "quantifier": "every history", "why_tests_cant": "invariant over unbounded histories", "anchors": ["lib/src/tsetlini_algo_bitwise.hpp", "lib/src/ta_state.cpp"]}
{"id": "C14", "title": "Polarity desynchronisation with number_of_states = 1", "statement": "The requirement number_of_states >= 2 of the two previous properties cannot be dropped (defect): there are accepted parameters with number_of_states = 1, valid data and a history of successful calls of a bitwise classifier after which a polarity bit differs from the sign of its automaton and an automaton is outside [-number_of_states, number_of_states - 1].", "quantifier": "every accepted parameter set", "why_tests_cant": "corner configuration", "anchors": ["lib/src/tsetlini_algo_bitwise.hpp: block2"]}
{"id": "C15", "title": "Weights stay in range", "statement": "After any history every clause weight w of a weighted estimator satisfies 0 <= w and 1 + w <= max(1, max_weight) (unweighted estimators keep no weights), so that the number of votes of a clause never exceeds max_weight.", "quantifier": "every history", "why_tests_cant": "unbounded histories", "anchors": ["lib/src/tsetlini_algo_classic.hpp: train_classifier_automata, train_regressor_automata", "lib/src/tsetlini_algo_bitwise.hpp"]}
{"id": "C16", "title": "Feedback locality", "statement": "One classifier training step on a sample changes only automata and weights of the target label and the opposite label; all other labels' automata and weights are untouched. One regressor step touches only clause rows it selected.", "quantifier": "every state, sample and random stream", "why_tests_cant": "needs frame reasoning over all indices", "anchors": ["lib/src/tsetlini.cpp: classifier_update_impl", "lib/src/tsetlini_algo_classic.hpp: train_classifier_automata"]}
{"id": "C17", "title": "Type I feedback", "statement": "Type I feedback to a clause that fired moves automata of true literals up (always with boost, otherwise unless the corresponding coin toss is set) and automata of false literals down (when the coin toss is set), by at most one and saturating at both ends; to a clause that did not fire it only moves automata down, saturating at -number_of_states. Weight is incremented (below max_weight) only when the clause fired.", "quantifier": "every row, sample, toss vector, number of states", "why_tests_cant": "all combinations of states/tosses/lengths", "anchors": ["lib/src/tsetlini_algo_classic.hpp: block1, block2", "lib/src/tsetlini_algo_bitwise.hpp: block1_sparse, block2"]}
{"id": "C18", "title": "Type II feedback", "statement": "Type II feedback to a firing clause moves up by one exactly the excluded automata of literals which are false in the sample, never moves any automaton down, never alters an included literal; a clause which did not fire is unchanged; the weight decrements by one, saturating at 0.", "quantifier": "every row, sample", "why_tests_cant": "all lengths & states", "anchors": ["lib/src/tsetlini_algo_classic.hpp: block3", "lib/src/tsetlini_algo_bitwise.hpp: block3"]}
{"id": "C19", "title": "Feedback selection", "statement": "In one classifier step the clauses selected for feedback: clauses of the target label get Type I when even and Type II when odd; clauses of the opposite label get Type II when even and Type I when odd; others none. Each clause is selected iff its random draw does not exceed (T - votes)/2T (target) resp. (T + votes)/2T (opposite). When the target votes equal +T no target clause is selected and when the opposite votes equal -T no opposite clause is selected.", "quantifier": "every vote pair in [-T,T], every T without overflow, every random stream in (0,1]", "why_tests_cant": "floating point over all thresholds", "anchors": ["lib/src/tsetlini_algo_classic.hpp: calculate_classifier_feedback_to_clauses"]}
{"id": "C20", "title": "Opposite label", "statement": "During training the opposite label picked for a sample is always a valid label in [0, number_of_labels) different from the sample's label, and every such label can be picked.", "quantifier": "every label count >= 2, every label, every draw", "why_tests_cant": "all label counts", "anchors": ["lib/src/tsetlini.cpp: generate_opposite_y"]}
{"id": "C21", "title": "Single-label training", "statement": "Training on a single label is undefined (defect): for every estimator and every valid data set whose labels are all 0, fit with max_number_of_labels <= 1 and at least one epoch passes input validation and then divides by zero.", "quantifier": "every data set accepted by validation", "why_tests_cant": "corner case", "anchors": ["lib/src/tsetlini.cpp: generate_opposite_y, fit_classifier_impl"]}
{"id": "C22", "title": "Rejected training leaves the estimator unchanged", "statement": "If fit or partial_fit returns an error status then the estimator (model, generators, parameters) is exactly as before the call; an error is returned iff X or y is empty, lengths differ, rows are ragged, X has values other than 0/1, a padding bit is set, (classifier) a label is negative or (already fitted partial_fit) exceeds the known labels or the number of features differs, (regressor) a response is outside [0, threshold].", "quantifier": "every estimator state, every argument", "why_tests_cant": "all malformed inputs", "anchors": ["lib/src/tsetlini.cpp: check_X_y, check_X, check_labels, check_response_y, fit_classifier_impl, fit_classifier_online_with_input_check, fit_regressor_impl"]}
{"id": "C23", "title": "Re-fitting equals fitting a fresh estimator", "statement": "Calling fit on an already used unweighted estimator gives exactly the estimator obtained by calling fit on a freshly constructed one with the same parameters.", "quantifier": "every prior history, data", "why_tests_cant": "all prior histories", "anchors": ["lib/src/tsetlini.cpp: fit_classifier_impl", "lib/src/tsetlini_state.cpp: initialize_state", "lib/src/ta_state.cpp"]}
{"id": "C24", "title": "Re-fitting a weighted estimator", "statement": "fit does not reset the clause weights of a weighted estimator that was fitted before (defect): after a fit with zero epochs the weights are those of the earlier training, cut or zero-extended to the new size, so that re-fitting is not the same as fitting a fresh estimator.", "quantifier": "every prior history", "why_tests_cant": "histories", "anchors": ["lib/src/ta_state.cpp: initialize"]}
{"id": "C25", "title": "Incremental training equals longer training", "statement": "fit(X, y, a epochs) followed by partial_fit(X, y, b epochs) gives the same estimator as fit(X, y, a+b epochs).", "quantifier": "every data set, a, b", "why_tests_cant": "all epoch splits", "anchors": ["lib/src/tsetlini.cpp: partial_fit_impl"]}
{"id": "C26", "title": "partial_fit on an unfitted estimator is fit", "statement": "partial_fit called on an estimator which was never successfully fitted behaves exactly as fit.", "quantifier": "every unfitted estimator, every argument", "why_tests_cant": "all inputs", "anchors": ["lib/src/tsetlini.cpp: partial_fit_impl"]}
{"id": "C27", "title": "Training is independent of n_jobs, tile size and schedule", "statement": "Two estimators whose parameters differ only in n_jobs and clause_output_tile_size, fed the same history of calls under arbitrary thread schedules, have the same model and generators and return the same results.", "quantifier": "every history, every pair of n_jobs / tile sizes, every schedule", "why_tests_cant": "all schedules", "anchors": ["lib/src/tsetlini.cpp", "lib/src/tsetlini_algo_classic.hpp", "lib/src/tsetlini_algo_bitwise.hpp", "lib/src/tsetlini_algo_common.hpp"]}
{"id": "C28", "title": "Each epoch visits every sample exactly once", "statement": "In every epoch each training sample is used for exactly one update, whatever the random stream.", "quantifier": "every data set and stream", "why_tests_cant": "all random streams", "anchors": ["lib/src/tsetlini.cpp: fit_classifier_online_impl, fit_regressor_online_impl"]}
{"id": "C29", "title": "Training is reproducible from the seed", "statement": "Two estimators created with equal parameters (including random_state) and given the same calls are equal after each call and give the same results.", "quantifier": "every history", "why_tests_cant": "all histories", "anchors": ["lib/src/tsetlini_state.cpp: initialize_state"]}
{"id": "C30", "title": "Saved and restored estimators are equal", "statement": "Serialising a fitted estimator to JSON and loading it into a fresh estimator yields an equal one (automata, weights, polarity, generators, parameters), so that predictions and any continued training coincide with the original.", "quantifier": "every reachable fitted state with finite real parameters", "why_tests_cant": "all states", "anchors": ["lib/src/tsetlini_state_json.cpp", "lib/src/estimator_state.cpp"]}
{"id": "C31", "title": "Saving an unfitted estimator", "statement": "A saved estimator that was never fitted cannot be loaded back (defect): for every accepted parameter set, loading what save wrote reads the first row of an empty table.", "quantifier": "unfitted estimators", "why_tests_cant": "corner case", "anchors": ["lib/src/tsetlini_state_json.cpp"]}
{"id": "C32", "title": "Factory parameter validation is sound and complete", "statement": "The parameter factories return a parameter set iff n_jobs is -1 or >= 1, number_of_states >= 1, s finite and >= 1, number of clauses positive and divisible by four (classifier) / even (regressor), boost in {0,1}, threshold >= 1, max_weight >= 1, counting_type / tile size / loss function are known values; otherwise the status S_BAD_JSON. In a returned set every user value is preserved, n_jobs is >= 1 and random_state is a seed.", "quantifier": "every argument combination", "why_tests_cant": "unbounded combinations of values", "anchors": ["lib/src/tsetlini_params.cpp", "lib/src/params_companion.hpp"]}
{"id": "C33", "title": "JSON parameter factory: defaults, override, unknown keys", "statement": "From a JSON object with correctly typed values the factory keeps given values, uses the documented defaults for the missing ones, and rejects an unknown key, a non-object or unparsable text with S_BAD_JSON; key order is irrelevant.", "quantifier": "every JSON document", "why_tests_cant": "infinite documents", "anchors": ["lib/src/tsetlini_params.cpp"]}
{"id": "C34", "title": "JSON parameter factory never throws", "statement": "The JSON factories do not always report malformed input through the status channel (defect): they throw an exception exactly when the text is an object in which a known key, reached before any unknown key, has a value that cannot be converted to the type of this parameter; a fraction outside the range of an integer parameter, reached likewise, is undefined behaviour; in every other case they return a parameter set or a status.", "quantifier": "every JSON document", "why_tests_cant": "infinite documents", "anchors": ["lib/src/tsetlini_params.cpp"]}
{"id": "C35", "title": "Keyword arguments are order independent", "statement": "The argument-based factories give the same result for every order of the typed arguments and use defaults for absent ones.", "quantifier": "every list of distinct typed arguments, every permutation", "why_tests_cant": "n! orders", "anchors": ["lib/include/arg_extract.hpp", "lib/src/tsetlini_params.cpp"]}
{"id": "C36", "title": "Bit vectors behave as boolean sequences", "statement": "A bit vector built from a range of 0/1 values (from_range), from a length (all false), or from a length and blocks (the length limited to what the blocks hold) reads back those values; set/clear/flip/assign change exactly the addressed bit; padding bits remain clear; all accesses in range are in bounds.", "quantifier": "every length, index, content", "why_tests_cant": "unbounded sizes", "anchors": ["lib/include/basic_bit_vector.hpp", "lib/include/from_range.hpp"]}
{"id": "C37", "title": "Matrices: rows are independent", "statement": "In bit and numeric matrices writing a cell changes exactly this cell, every in-range cell is in bounds, rows do not overlap, row data is aligned to 64 bytes.", "quantifier": "every shape whose storage size fits 32 bits", "why_tests_cant": "unbounded shapes", "anchors": ["lib/include/basic_bit_matrix.hpp", "lib/include/basic_numeric_matrix.hpp"]}
{"id": "C38", "title": "Huge matrices", "statement": "A numeric or bit matrix of any positive 32-bit shape is usable (every cell can be read) exactly when its rows, rounded up to the alignment, and its number of items fit 32 bits: for every other shape the computed storage size wraps and the last cell is outside the storage (defect); for some even the first one is.", "quantifier": "every shape and item width", "why_tests_cant": "cannot allocate in tests", "anchors": ["lib/include/basic_numeric_matrix.hpp", "lib/include/basic_bit_matrix.hpp"]}
{"id": "C39", "title": "Coin tosser", "statement": "Each toss vector for literal selection has exactly the requested number of ones (features/s rounded down or up, as decided by one draw), never more than the number of features, only 0/1 entries, and generation terminates for every stream which visits every residue - for up to 2^24 features. Beyond, rounding can request more ones than there are features, and then generation does not terminate (defect).", "quantifier": "every size, s, stream", "why_tests_cant": "unbounded streams", "anchors": ["lib/src/coin_tosser_exact.hpp"]}
{"id": "C40", "title": "Random generator state machine", "statement": "The integer generator is a deterministic function of its state; index always in range; copies are independent and produce the same stream; equality of generators implies equal streams; bounded draw next(a,b) is within [a,b]; float draws are in (0, 1].", "quantifier": "every seed, number of draws", "why_tests_cant": "unbounded streams / all 2^32 outputs", "anchors": ["lib/include/mt.hpp"]}
{"id": "C41", "title": "peek predicts the next draw", "statement": "peek() returns the value of the next draw whenever the buffer is not exhausted; for an exhausted buffer (a freshly seeded generator, or after every 4992 draws) it does not (defect).", "quantifier": "every generator state", "why_tests_cant": "all states", "anchors": ["lib/include/mt.hpp"]}
{"id": "C42", "title": "Regressor feedback direction", "statement": "A regressor step with zero error leaves automata and weights unchanged; with prediction too low only Type I feedback, with prediction too high only Type II feedback is given; at most number-of-clauses picks are made.", "quantifier": "every state, sample, response, stream", "why_tests_cant": "all states", "anchors": ["lib/src/tsetlini_algo_classic.hpp: train_regressor_automata", "lib/src/tsetlini_algo_bitwise.hpp"]}
{"id": "C43", "title": "Regressor feedback count is well defined", "statement": "The number of feedback hits of a regressor step is computed without undefined behaviour, lies between 0 and the number of clauses, and is proportional to the loss of the relative error up to rounding, when box_muller is off and the loss is a probability; with box_muller on it is defined for every draw, and within 3.34 standard deviations plus 1 of the mean, when the mean n p minus 3.34 standard deviations sqrt(n p (1-p)) is at least -0.49, and undefined for some draws when the mean minus 3.33 standard deviations is at most -0.51 (defect); with L1+2 and a large C1 it is undefined too (defect).", "quantifier": "every accepted parameter set, error and stream", "why_tests_cant": "float to int conversions over all inputs", "anchors": ["lib/src/tsetlini_algo_classic.hpp", "lib/src/box_muller_approx.cpp", "lib/src/loss_fn.cpp"]}
{"id": "C44", "title": "Loss functions", "statement": "MAE/L1 and MSE/L2 map a relative error in [-1,1] to a probability in [0,1], are even, monotone in |error|, 0 at 0 and 1 at 1. So does L1+2 for 0 <= C1 <= 1. berHu does not (defect).", "quantifier": "every float in [-1,1]", "why_tests_cant": "2^31 floats", "anchors": ["lib/src/loss_fn.cpp"]}
{"id": "C45", "title": "Counting type selection", "statement": "The automatically selected counting type is the narrowest of int8/int16/int32 which can hold number_of_states (hence every state in [-number_of_states, number_of_states-1]); an explicitly requested one is widened when too narrow.", "quantifier": "every number_of_states", "why_tests_cant": "all 2^31 values", "anchors": ["lib/src/tsetlini_state.cpp: normalize_counting_type"]}
{"id": "C46", "title": "Threshold overflow", "statement": "Accepted thresholds above 2^30-1 make training undefined (defect): for every estimator with such a threshold, fit of valid data with at least two labels and at least one epoch overflows a signed integer.", "quantifier": "every accepted threshold", "why_tests_cant": "corner values", "anchors": ["lib/src/tsetlini_algo_classic.hpp: calculate_classifier_feedback_to_clauses"]}
{"id": "C47", "title": "Training is free of undefined behaviour", "statement": "For accepted parameters (threshold < 2^30, at least two labels, sizes whose products fit the machine integers) and valid data, fit and partial_fit return S_OK and never index out of bounds, overflow, divide by zero or convert out of range, and afterwards predict on any sample with the same number of features succeeds.", "quantifier": "every history and stream", "why_tests_cant": "all histories", "anchors": ["lib/src/tsetlini.cpp", "lib/src/tsetlini_algo_classic.hpp", "lib/src/tsetlini_algo_bitwise.hpp"]}
{"id": "C48", "title": "Concurrent prediction", "statement": "Const does not mean thread safe (defect): on every fitted classifier, two threads calling predict on any two acceptable samples can run into a data race, and can interleave so that a call returns the other call's answer, or the label of an arbitrary mixture of the clause outputs for both samples; under every interleaving the answer is some label of the classifier; calls made one after another, an undisturbed call, and concurrent calls about one and the same sample get the right answer.", "quantifier": "every fitted classifier, samples, number of threads, interleaving", "why_tests_cant": "schedules", "anchors": ["lib/src/tsetlini.cpp: predict_classifier_impl", "lib/src/estimator_state_cache.hpp"]}
{"id": "C49", "title": "Padding check", "statement": "The padding validation of bit vectors accepts a vector iff all bits of its last block beyond its size are zero, whenever the vector has no more blocks than needed; a vector with a surplus block, which the constructor taking a length and blocks allows, makes the check shift by more than the block width, which is undefined (defect).", "quantifier": "every bit vector", "why_tests_cant": "all sizes and contents", "anchors": ["lib/src/tsetlini.cpp: check_clear_padding"]}
{"id": "C50", "title": "Aligned buffers", "statement": "Aligned arrays and generator buffers return a pointer aligned as requested and entirely inside the allocated storage, whatever address the storage has.", "quantifier": "every base address, alignment, size", "why_tests_cant": "all addresses", "anchors": ["lib/include/aligned_array.hpp", "lib/include/mt.hpp"]}
{"id": "C51", "title": "Random numbers are eight interleaved twisted sequences", "statement": "For every seed the draws of the integer generator are, in rotation, the tempered words of eight sequences, sequence k seeded from seed + k by the standard initialisation and continued by one twisted recurrence (the upper-bit mask of the source being bit 27, not bit 31 as in MT19937); the float generator maps the same draws to (0, 1].", "quantifier": "every seed, every number of draws", "why_tests_cant": "unbounded streams, block refills", "anchors": ["lib/include/mt.hpp"]}
{"id": "C52", "title": "Initial state", "statement": "fit with zero epochs leaves every automaton at -1 or 0, the choice being the parity of one draw of the integer generator seeded with random_state, taken in row-major order; afterwards the integer generator stands right behind those draws and the float generator at its start, whatever was done with the estimator before.", "quantifier": "every accepted parameter set with a fixed seed, every previous history, every valid data set", "why_tests_cant": "all histories and shapes", "anchors": ["lib/src/tsetlini.cpp: initialize_state", "lib/src/tsetlini_algo_classic.hpp: initialize_state", "lib/src/tsetlini_algo_bitwise.hpp: initialize_state"]}
{"id": "C53", "title": "Factories move string arguments out of the caller's variables", "statement": "Passing named string arguments to a factory is destructive (defect): after make_* a non-const counting_type (or loss_fn) variable is left moved-from, so that a second call with the same variables is rejected with S_BAD_JSON although the first one succeeded; const variables, numbers and flags keep their values.", "quantifier": "every set of caller variables", "why_tests_cant": "all argument combinations", "anchors": ["lib/include/arg_extract.hpp", "lib/include/tsetlini.hpp", "lib/include/tsetlini_params.hpp"]}
{"id": "C54", "title": "Estimators that compare equal behave equally", "statement": "Two estimators (of the same kind) that compare equal with == answer every further sequence of calls alike and compare equal after it; the same calls on two estimators made with equal parameters leave equal estimators, and a fitted estimator saved and loaded compares equal to the original - except that a regressor whose loss_fn_C1 is NaN, which the factory accepts, equals nothing but itself (defect).", "quantifier": "every pair of estimators and every history", "why_tests_cant": "all histories", "anchors": ["lib/src/estimator_state.cpp: operator==", "lib/src/estimator_state_cache.cpp: are_equal", "lib/src/ta_state.hpp", "lib/include/mt.hpp: operator=="]}
{"id": "C55", "title": "Estimators are values: clones and moves", "statement": "A program that creates estimators, clones their states, builds estimators from states, moves, saves, loads and destroys them, and calls them in any order behaves as if every variable held an estimator of its own: the calls on an estimator and on one built from its clone_state() get, however they are interleaved, the answers the original would have given to each of the two call sequences alone; no state is leaked, freed twice or used after it was freed; using an estimator after it was moved from is undefined.", "quantifier": "every program over any number of estimators, every placement by the allocator", "why_tests_cant": "unbounded programs and interleavings", "anchors": ["lib/src/tsetlini.cpp: clone_state, constructors", "lib/include/tsetlini.hpp", "lib/src/estimator_state.cpp: EstimatorStateDeleter"]}
{"id": "C56", "title": "read_params", "statement": "read_params() returns exactly the parameters the factory made until the estimator is fitted, and afterwards these plus number_of_features (and number_of_labels of a classifier) of the data it was fitted to; nothing else ever changes.", "quantifier": "every history", "why_tests_cant": "all histories", "anchors": ["lib/src/tsetlini.cpp: read_params, fit_classifier_impl, fit_regressor_impl"]}
{"id": "C57", "title": "Copies of generators", "statement": "Assigning a generator copies its complete state whatever the addresses of the two objects; copy construction (used by clone_state) does so for objects aligned to 64 bytes, as C++17 allocates them; between addresses with different remainders modulo 64 the implicit copy constructor loses the state (defect, unreachable with a conforming operator new).", "quantifier": "every memory content and pair of addresses", "why_tests_cant": "all addresses", "anchors": ["lib/include/mt.hpp: BasePRNG"]}
{"id": "C58", "title": "Loads that fail", "statement": "Loading a document whose generators or automata are missing or malformed throws and leaves every prediction, decision function and evaluation of the estimator as it was. A load that fails later is not atomic (defect): when only the parameters are missing or malformed, the exception leaves the automata and generators of the document with the parameters and buffers of the old estimator, and if the document has fewer clauses, the next predict reads out of bounds.", "quantifier": "every estimator, every history of the saved one, every document", "why_tests_cant": "all documents and histories", "anchors": ["lib/src/tsetlini_state_json.cpp: from_json_string"]}
{"id": "C59", "title": "Loading another kind of document", "statement": "The members estimator and algo of a saved document are not checked. A regressor's document loaded into a classifier (and the reverse) throws std::out_of_range after the automata were replaced, and predict then throws too; a classic document loaded into a bitwise estimator throws and leaves its answers alone; a bitwise document (at least two states) loaded into a classic estimator is accepted, with the same automata, weights and parameters and the same predictions for the same samples.", "quantifier": "every history of the saved estimator, every receiving estimator", "why_tests_cant": "all histories", "anchors": ["lib/src/tsetlini_state_json.cpp: to_json_string, from_json_string", "lib/src/estimator_state_cache.cpp: reset"]}
{"id": "C60", "title": "Parallel clause loops", "statement": "The OpenMP loops that compute clause outputs, for training and for prediction, in both algorithms, may be executed by a team of any size with the iterations distributed in any way and the memory accesses of the threads interleaved in any way: there is no data race and no undefined access, the loop always terminates, and it leaves exactly the memory the sequential loop leaves; on a fitted estimator and an acceptable sample that is the output of every clause.", "quantifier": "every team size, distribution of iterations, interleaving of accesses, estimator and sample", "why_tests_cant": "schedules", "anchors": ["lib/src/tsetlini_algo_classic.hpp: calculate_clause_output_T, calculate_clause_output_with_pruning_T", "lib/src/tsetlini_algo_bitwise.hpp: calculate_clause_output_T, calculate_clause_output_with_pruning_T"]}
{"id": "C61", "title": "Packed clause outputs", "statement": "The overload of the clause loop that packs clause outputs into a bit vector is right when executed by one thread; with two or more threads any two clauses whose outputs share a block can run into a data race, and the output of either can get lost although the loop finishes (defect; no estimator calls this overload).", "quantifier": "every team of at least two threads, every pair of clauses in one block, every sample", "why_tests_cant": "schedules", "anchors": ["lib/src/tsetlini_algo_bitwise.hpp: calculate_clause_output_T (bit_vector overloads)"]}
{"id": "C62", "title": "Feedback kernels agree", "statement": "The feedback kernels exist in a feature-by-feature and a 64-features-per-word version (bitwise) and a classic version. For the same sample and the same coin tosses, packed or not, all of them move the same automata in the same way, and the two bitwise versions leave identical polarity bits, for any number of features; the states of trained bitwise estimators with at least two states are within the domain of this claim. With number_of_states 1 the versions differ: the feature-wise one, which is in use, flips the polarity of an automaton that stays where it is (defect).", "quantifier": "every state, sample, toss vector and number of features", "why_tests_cant": "all sizes, tails of partial words", "anchors": ["lib/src/tsetlini_algo_bitwise.hpp: block1, block2, block3_, block3", "lib/src/tsetlini_algo_classic.hpp: block1, block2, block3"]}
{"id": "C63", "title": "Only included features matter", "statement": "The decision value of a label depends only on the features that occur, plain or negated, in the clauses of that label, and the predicted label or response only on the features that occur in some clause: samples that differ elsewhere get the same answers. An estimator whose clauses contain no literal answers zero votes, label 0 and response 0 to every sample.", "quantifier": "every history, every pair of samples", "why_tests_cant": "all models and samples", "anchors": ["lib/src/tsetlini_algo_classic.hpp: calculate_clause_output_with_pruning_T", "lib/src/tsetlini_algo_bitwise.hpp: calculate_clause_output_with_pruning_T", "lib/src/tsetlini.cpp: predict, decision_function"]}
{"id": "C64", "title": "Caching coin tossers", "statement": "The coin tossers that cache their tosses, as bytes or as bits, hold after populate() exactly round(size / s) ones, and any number of calls of tosses() only permutes them (a later populate() leaves nothing of them); every pointer tosses() returns is followed by a full set of tosses within the cache. Outside of their domain they fail (defects): without extra tosses (for the bitwise caches: with 1 or 2 features) tosses() divides by zero, beyond 2^24 tosses populate() may never end, and the pointers of the bit tosser need not be aligned as the kernels assume.", "quantifier": "every size, specificity, stream of random numbers and number of calls", "why_tests_cant": "all sizes and histories", "anchors": ["lib/src/coin_tosser.hpp: CoinTosser, CoinTosserBitwise", "lib/src/estimator_state_cache.cpp: ClassifierStateBitwiseCache::reset, RegressorStateBitwiseCache::reset"]}
{"id": "C65", "title": "Cache of random floats", "statement": "A program that refills the cache first and reads at most its size between refills receives every value drawn from the generator at most once and loses none, however reads and refills alternate; one read more is out of bounds. The order of the values is not kept when a refill finds unread values (defect).", "quantifier": "every cache size, generator and sequence of operations", "why_tests_cant": "unbounded histories", "anchors": ["lib/src/frand_cache.hpp"]}
{"id": "C66", "title": "Containers are values", "statement": "Matrices and bit vectors behave as values: whatever program of constructions, copies, moves, assignments, swaps, element accesses and destructions is run, every variable has elements of its own; reading an element inside gives what was last written there (zero before, converted to the element type) and writing changes that element only; a copy equals the original and is not affected by later changes to it, moving hands the elements over, a matrix moved from is an empty one, and every block of memory is freed exactly once. Two exceptions (defects): move assignment of a container to itself loses its elements, and a bit vector moved from keeps its old size although it has no storage, so that reading it, or giving it to a bitwise estimator, is undefined.", "quantifier": "every program over any number of containers, every placement of blocks in memory", "why_tests_cant": "unbounded histories and aliasing between objects", "anchors": ["lib/include/basic_numeric_matrix.hpp", "lib/include/basic_bit_matrix.hpp", "lib/include/basic_bit_vector.hpp", "lib/include/aligned_allocator.hpp"]}
{"id": "C67", "title": "Results are values of a sum type", "statement": "Every result of the API is either an error or a value. Whatever program of constructions, copies, moves, leftMap, rightMap, leftFlatMap, rightFlatMap, join, comparisons and destructions is run on results, with whatever functions (which may have side effects and throw), it computes what the same program computes with a sum type: a function given to a map is called exactly once if its side is present and never otherwise, on the value stored; the other side is passed on; no inactive member of the union is read, and every stored object is destroyed exactly once. The same for the optional values of left() and right(), for Try and for lift.", "quantifier": "every program over any number of results, every content type and every function", "why_tests_cant": "all programs and functions", "anchors": ["lib/include/neither/either.hpp: Either", "lib/include/neither/maybe.hpp: Maybe", "lib/include/neither/try.hpp: Try", "lib/include/neither/lift.hpp: lift"]}
{"id": "C68", "title": "Chains stop at the first error", "statement": "A chain of rightMap and rightFlatMap calls on temporaries, which is how the factories check parameters, gives the error of the first failing step and runs no step after it, otherwise the value of the last step; an exception of a step leaves the chain; all temporaries are destroyed; a chain may be split anywhere. In particular the chains of checks of the factories, executed on result objects, accept and reject exactly as checking one after the other on plain parameters does.", "quantifier": "every chain of any length, every function, every set of parameters", "why_tests_cant": "unbounded chains", "anchors": ["lib/include/neither/either.hpp: rightMap, rightFlatMap", "lib/src/tsetlini_params.cpp: make_classifier_params_from_args, make_regressor_params_from_args"]}
{"id": "C69", "title": "Mapping a named result consumes it", "statement": "Mapping a result held in a variable leaves the variable as it was if both contents can be copied. If one cannot, as with the estimators the factories return, the same expression moves the side that is not mapped out of the variable (defect): after clf.leftMap(f) on a successful result the estimator is gone from the variable, and after clf.rightMap(f) on a failed one its message.", "quantifier": "every content, function and state", "why_tests_cant": "all contents and functions", "anchors": ["lib/include/neither/either.hpp: leftMap, rightMap"]}
{"id": "C70", "title": "How automata are stored does not matter", "statement": "The counting type, the number of jobs, the tile size and verbosity do not influence what is learnt: two estimators created with arguments that differ only in these, given the same calls, return the same results of every call (statuses, labels, votes, responses, scores) as long as both complete, and end up with the same automata, weights and random generators (bitwise estimators: with at least two states).", "quantifier": "every pair of accepted argument sets differing only in those settings, every history of calls, every pair of schedules", "why_tests_cant": "two runs, all histories", "anchors": ["lib/src/tsetlini_state.cpp: initialize_state", "lib/src/ta_state.cpp: make_ta_state_matrix, initialize", "lib/src/tsetlini_algo_classic.hpp: block1, block2, block3, train_classifier_automata, train_regressor_automata", "lib/src/tsetlini_algo_bitwise.hpp: block1_sparse, block2, block3, train_classifier_automata, train_regressor_automata"]}
{"id": "C71", "title": "Weights that cannot grow", "statement": "An estimator with weighted clauses and max_weight 1 behaves exactly as one without weights, and without weights max_weight is irrelevant: whenever each of two estimators is unweighted or has max_weight 1, and their other settings agree, the same calls give the same results and leave the same automata and generators.", "quantifier": "every pair of such argument sets, every history of calls, every pair of schedules", "why_tests_cant": "two runs, all histories", "anchors": ["lib/src/tsetlini_algo_classic.hpp: train_classifier_automata, train_regressor_automata, sum_up_label_votes, sum_up_regressor_votes", "lib/src/tsetlini_algo_bitwise.hpp: train_classifier_automata, train_regressor_automata"]}
{"id": "C72", "title": "Texts accepted as JSON", "statement": "The functions that take JSON as a text accept exactly the JSON texts of RFC 8259 (UTF-8, optionally behind a byte order mark; numbers too large for a double excluded) and give them their value: integers that fit 64 bits exactly, other numbers as the nearest double, escapes and surrogate pairs decoded, of members with equal keys the last. Any other sequence of bytes, of any length and nesting, is rejected: the parameter factories return S_BAD_JSON, loading throws and leaves the estimator as it was. Reading ends for every text, without undefined behaviour and without failing an internal assertion.", "quantifier": "every sequence of bytes", "why_tests_cant": "all texts, unbounded length and nesting", "anchors": ["lib/src/json/json.hpp: lexer, parser::sax_parse_internal, json_sax_dom_parser, input_adapter", "lib/src/tsetlini_params.cpp: json_parse, make_classifier_params_from_json, make_regressor_params_from_json", "lib/src/tsetlini_state_json.cpp: to_json_string, from_json_string"]}
{"id": "C73", "title": "Saved text is JSON", "statement": "to_json_string of every estimator, whatever its parameters (made from arguments or from a JSON text) and its history, returns a text, does not throw, does not overrun a buffer and fails no internal assertion; the text is a JSON text of RFC 8259 and denotes the document of the estimator. Every finite double is written with at most 25 characters that denote exactly that double.", "quantifier": "every parameter set, every history, every double", "why_tests_cant": "all histories, all 2^64 doubles, all strings", "anchors": ["lib/src/tsetlini_state_json.cpp: to_json_string, from_json_string", "lib/src/json/json.hpp: serializer::dump, dump_escaped, dump_integer, dump_float, detail::dtoa_impl, to_chars"]}
{"id": "C74", "title": "Saving to and loading from a text", "statement": "The text to_json_string returns for a fitted estimator, given to from_json_string of any estimator of the same kind, restores equal automata, weights, generators and parameters, and both answer every sequence of further calls identically (a loss_fn_C1 that is not finite excepted, C30). For an estimator that was never fitted loading its text is undefined (defect, C31).", "quantifier": "every parameter set, history, further history, and loading estimator", "why_tests_cant": "all histories", "anchors": ["lib/src/tsetlini_state_json.cpp: to_json_string, from_json_string", "lib/src/json/json.hpp: parse, dump"]}
{"id": "C75", "title": "Only the meaning of a text matters", "statement": "Two JSON texts that denote the same value are treated alike by the factories and by loading: white space around tokens, a byte order mark, the way characters are escaped and the order of members with different keys are irrelevant.", "quantifier": "every pair of texts with the same value", "why_tests_cant": "all texts", "anchors": ["lib/src/json/json.hpp: lexer::scan, skip_bom", "lib/src/tsetlini_params.cpp: json_parse, make_classifier_params_from_json, make_regressor_params_from_json", "lib/src/tsetlini_state_json.cpp: to_json_string, from_json_string"]}
{"id": "C76", "title": "Zero byte in a text (defect)", "statement": "A zero byte between tokens ends the text for the reader: a JSON text followed by a zero byte and arbitrary other bytes, which is no JSON text, is accepted by the factories and by loading as if it ended before the zero byte.", "quantifier": "every JSON text and every continuation", "why_tests_cant": "all texts and continuations", "anchors": ["lib/src/json/json.hpp: lexer::scan", "lib/src/tsetlini_params.cpp: json_parse, make_classifier_params_from_json, make_regressor_params_from_json", "lib/src/tsetlini_state_json.cpp: to_json_string, from_json_string"]}
{"id": "C77", "title": "Learned samples change nothing", "statement": "Training a fitted classifier further, for any number of epochs, on data whose every sample already has the largest votes (threshold) for its label and the smallest (minus threshold) for every other label leaves every automaton, literal and weight, and the answer to every sample whatever, as they were; so does training a regressor on data it already responds to as wanted. Where no clause is empty the votes are the values of the decision function, the responses those of predict.", "quantifier": "every fitted estimator, data set of learned samples, number of epochs, random stream and schedule", "why_tests_cant": "all histories, data and random streams", "anchors": ["lib/src/tsetlini_algo_classic.hpp: train_classifier_automata, train_regressor_automata, calculate_classifier_feedback_to_clauses", "lib/src/tsetlini.cpp: fit_classifier_online_impl, fit_regressor_online_impl"]}
{"id": "C78", "title": "Training moves slowly", "statement": "Training a fitted classifier further for n epochs on m samples moves every automaton at most n*m steps towards inclusion and at most n*m*features steps towards exclusion, and changes every weight by at most n*m; for a regressor these bounds are multiplied by the number of clauses.", "quantifier": "every fitted estimator, data set, number of epochs, random stream and schedule", "why_tests_cant": "all histories, data and random streams", "anchors": ["lib/src/tsetlini_algo_classic.hpp: block1, block2, block3, train_classifier_automata, train_regressor_automata", "lib/src/tsetlini_algo_bitwise.hpp: block1_sparse, block2, block3"]}
{"id": "C79", "title": "Concurrent prediction on a regressor", "statement": "predict on a fitted regressor is a const call, but concurrent calls on one object share a scratch vector. A call during which no other call makes progress returns the response of a single-threaded call, and so do all calls made one after the other, and all calls about one and the same sample under every interleaving; under every interleaving memory accesses stay in bounds and each answer is between 0 and the threshold. But any two calls can reach a data race, a call can return the other call's response, and two calls that evaluate clauses in the same order can return the response of any mixture of the clause outputs (defect).", "quantifier": "every fitted regressor, number of threads, samples, evaluation orders and schedules", "why_tests_cant": "all interleavings", "anchors": ["lib/src/tsetlini.cpp: predict_regressor_impl", "lib/src/tsetlini_algo_classic.hpp: sum_up_regressor_votes", "lib/src/estimator_state_cache.hpp", "lib/src/estimator_state.hpp: cache"]}
{"id": "C80", "title": "Training on a sample never makes its own answer worse", "statement": "After any number of epochs of further training of a fitted classifier on a single sample, decision_function of that sample is not lower for its label and not higher for any other label, and predict is still right if it was right. After one epoch of further training of a fitted regressor on a single sample, a prediction that was too high or right is not higher, and one that was too low or right is not lower if no clause is empty (in general: if the response that training computes, in which empty clauses count, was not higher than the wanted one).", "quantifier": "every fitted estimator, sample, label or response, number of epochs (classifier), random stream and schedule", "why_tests_cant": "all histories, samples and random streams", "anchors": ["lib/src/tsetlini_algo_classic.hpp: calculate_classifier_feedback_to_clauses, block1, block2, block3, train_classifier_automata, train_regressor_automata", "lib/src/tsetlini_algo_bitwise.hpp: block1_sparse, block2, block3", "lib/src/tsetlini.cpp: classifier_update_impl, regressor_update_impl"]}
{"id": "C81", "title": "What is written to the log", "statement": "With verbose false a history of calls writes nothing to the log. With verbose true the log of a history is, call by call: nothing for calls that are rejected and for predictions and evaluations; for the calls that train from scratch (fit, and partial_fit of an unfitted estimator) one line per setting, with the labels and features of that training and the seed, max_weight only for weighted estimators, then the counting type in use, then \"Epoch 1\" to \"Epoch n\"; for partial_fit of a fitted estimator only the epoch lines, again counted from 1.", "quantifier": "every estimator created with valid arguments, history of calls, random stream and schedule", "why_tests_cant": "all histories", "anchors": ["lib/src/logger.hpp: LOG, logger_impl", "lib/src/tsetlini_state.cpp: log_classifier_params, log_regressor_params, normalize_counting_type, initialize_state", "lib/src/tsetlini.cpp: fit_classifier_online_impl, fit_regressor_online_impl"]}
{"id": "C82", "title": "Scores order classifiers", "statement": "The results of evaluate compare classifiers faithfully: of two fitted classifiers of any kinds, evaluated on data sets of the same size, the one with more right answers never gets the lower score and equally many right answers give the same score; up to 2097152 samples more right answers give a strictly higher score, and a score of 1 means that every answer is right. Not so for large data: for every fitted classifier and every size from 67108864 samples there is a data set on which it scores 1 although an answer is wrong (defect).", "quantifier": "every pair of fitted classifiers and data sets of the same size", "why_tests_cant": "all histories and data sets", "anchors": ["lib/src/tsetlini.cpp: evaluate_classifier_impl"]}
{"id": "C83", "title": "A saved model can be evaluated from its document", "statement": "The text to_json_string returns for a fitted estimator contains its model in a form another program can evaluate: for every sample, the votes computed from the members params (number_of_labels, number_of_clauses_per_label or number_of_regressor_clauses, number_of_features, threshold), ta_state.matrix.data and ta_state.weights of the JSON value of the text (a literal is included when its entry is not negative; rows 2j and 2j+1 are features and negated features of clause j; even clauses vote for, odd ones against; empty clauses do not vote) are those of decision_function, the first largest one is the answer of predict, and the clamped sum is the answer of a regressor.", "quantifier": "every fitted estimator (bitwise with number_of_states = 1 excluded), every sample", "why_tests_cant": "all histories and samples", "anchors": ["lib/src/tsetlini_state_json.cpp: to_json_string, from_json_string", "lib/src/tsetlini.cpp: decision_function, predict", "lib/src/tsetlini_algo_classic.hpp: sum_up_all_label_votes, sum_up_regressor_votes"]}
{"id": "C84", "title": "A model document written by hand", "statement": "A model can be changed outside the library. For every saved text of a fitted estimator and every text that keeps its generators and parameters and has any learning state of the right shape (one row per clause and kind of literal, one entry per feature that fits the stated bytes, one weight below max_weight for every two rows, or none; for a bitwise estimator also polarity bits that match the entries), from_json_string loads the text into any estimator; the parameters are those of the saved one, saving gives the rows and weights of the text back, and decision_function, predict and the regressor's response are, for every sample, what the rows and weights of the text say. If the entries have the saved number of bytes and lie between -number_of_states and number_of_states - 1, the same is true of what is saved after any further calls, training included. The documents the library itself saves are of this shape.", "quantifier": "every fitted estimator (bitwise with number_of_states = 1 excluded), learning state of the right shape, loading estimator, sample and further history", "why_tests_cant": "all histories, documents and samples", "anchors": ["lib/src/tsetlini_state_json.cpp: to_json_string, from_json_string", "lib/src/tsetlini.cpp: from_json_string, decision_function, predict", "lib/src/tsetlini_algo_classic.hpp: sum_up_all_label_votes, sum_up_regressor_votes"]}
