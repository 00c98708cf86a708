# Design of the formal model of Tsetlini

(Plan written before the proofs; the sections *Trusted base* and *What is not modelled* are kept current.)

## Approach

The library is a state machine (four estimators) over plain containers. We model it, function by function, as total
executable Gallina functions in `rocq/theories/*.v` in an outcome monad `Ret | Throw | UB | OutOfFuel`:
undefined behaviour (out of bounds access, division by zero, signed overflow, bad shift, unrepresentable float to
integer conversion) is a distinct outcome, loops without a static bound carry fuel.
Specifications live in `Spec.v`, `ParamSpec.v`, `JsonSpec.v`, `JsonGrammar.v` and at the top of the `Props*.v` files and do not mention
model helpers; lemma files (`*Facts.v`, `Est*.v`, `Sim*.v`, `Laws*.v`, `*Props.v`) are separate; the property theorems
live in `Props*.v`, which contain only `Theorem`/`exact`/`Print Assumptions` and examples showing that hypotheses are met.

Sources of nondeterminism are parameters of the model (records `rnd` and `sch`): integer generator, float generator,
`std::shuffle` (any permutation), OpenMP schedule (any permutation of iterations, chosen anew at every parallel region),
evaluation order of function arguments (`ct.tosses1(prng), ct.tosses2(prng)` is unspecified in C++),
hardware_concurrency, random_device. The concrete Mersenne-twister of mt.hpp is also modelled and is an instance.

Floats are IEEE binary32/binary64 via Coq's SpecFloat (executable, axiom free); proofs about rounding go through Flocq.

## Per-property plan

- **C01 Clause semantics (classic)** - Model both loops (short path, tiled path with early break and tail) literally over the flat row-major matrix, clause order given by an arbitrary scheduler permutation; prove equal to `spec_clause` by loop invariants.
- **C02 Clause semantics (bitwise)** - Same over 64-bit blocks (N, bitwise ops); bit-level lemma `N.testbit` turns block conditions into per-feature conditions.
- **C03 Classic and bitwise inference agree** - Corollary of C01 and C02 through the common spec, stated between the two models; lifted to decision_function/predict.
- **C04 Decision function is the clamped weighted vote** - sum_up_label_votes with int64 overflow as UB; prove equal to a sum over `filter` of firing clauses, clamp.
- **C05 Predicted label is the first maximum** - max_element modelled as a left fold; prove argmax-first.
- **C06 Batch equals single** - Prove that the batch loop is `map` of the single calls for arbitrary initial cache contents.
- **C07 Regressor prediction is the clamped weighted clause count** - As C04 for sum_up_regressor_votes.
- **C08 Prediction input validation is a decision table** - Decision table proved for every state satisfying the reachable-state invariant.
- **C09 Prediction has no observable side effect** - State passing model in which predict returns the new cache; equality up to cache contents (`same_model`), congruence of every operation.
- **C10 Evaluate is the accuracy** - IEEE binary32 via SpecFloat; bounds by the Flocq rounding lemmas.
- **C11 Evaluate does not validate its input** - Refutation witnesses in the model (throw / UB / NaN).
- **C12 Automaton states stay in range** - Invariant over op lists; stores wrap explicitly at the counting type width and the theorem shows no wrap.
- **C13 Polarity bits equal automaton signs** - Invariant over op lists for number_of_states >= 2.
- **C14 Polarity desynchronisation with number_of_states = 1** - Refutation by vm_compute witness through the training function.
- **C15 Weights stay in range** - Invariant over op lists.
- **C16 Feedback locality** - Frame lemma for classifier_update / regressor_update: cells of other labels equal.
- **C17 Type I feedback** - Cell-wise characterisation of block1/block1_sparse/block2 against `spec_type1_*`.
- **C18 Type II feedback** - Cell-wise characterisation of block3 against `spec_type2`.
- **C19 Feedback selection** - Characterise the feedback vector; saturation by float reasoning.
- **C20 Opposite label** - Modular arithmetic.
- **C21 Single-label training** - Refutation: outcome is UB DivByZero.
- **C22 Rejected training leaves the estimator unchanged** - Case analysis over the checks, decision table.
- **C23 Re-fitting equals fitting a fresh estimator** - Equality of resulting states (weights empty).
- **C24 Re-fitting a weighted estimator** - Refutation witness.
- **C25 Incremental training equals longer training** - Epoch loop split lemma.
- **C26 partial_fit on an unfitted estimator is fit** - Unfolding with is_fitted = false, plus characterisation of is_fitted on reachable states.
- **C27 Training is independent of n_jobs, tile size and schedule** - Relational invariant between two runs with different schedulers / n_jobs / tile.
- **C28 Each epoch visits every sample exactly once** - Ghost-free: epoch = fold over shuffled index list which is a permutation.
- **C29 Training is reproducible from the seed** - Functional model; two different construction/call histories reaching equal params and data give same_model.
- **C30 Saved and restored estimators are equal** - JSON values as inductive type, text level trusted; round-trip theorem on the reachable-state invariant.
- **C31 Saving an unfitted estimator** - Refutation witness.
- **C32 Factory parameter validation is sound and complete** - Model of both factories (args, JSON); iff theorem against an independent predicate.
- **C33 JSON parameter factory: defaults, override, unknown keys** - Model over JSON values.
- **C34 JSON parameter factory never throws** - Refutation witness.
- **C35 Keyword arguments are order independent** - arg_extract model by type tag lookup; permutation invariance.
- **C36 Bit vectors behave as boolean sequences** - Bit vector model over N blocks.
- **C37 Matrices: rows are independent** - Flat matrices models; get/set lemmas, bounds, alignment arithmetic.
- **C38 Huge matrices** - 32-bit size arithmetic case by case: it is exact, or the stride is below the row length, or the product loses at least 2^32.
- **C39 Coin tosser** - Loop with fuel; exact count invariant; termination under fairness; float bounds on hits.
- **C40 Random generator state machine** - Executable model of MT (8 interleaved streams); invariants.
- **C41 peek predicts the next draw** - Refutation witness.
- **C42 Regressor feedback direction** - train_regressor_automata characterisation.
- **C43 Regressor feedback count is well defined** - Error analysis of every float operation of the count (Flocq); for box_muller with the tables given by their formulas up to 1e-5 (ln 257 bounded by repeated squaring). Refutation witnesses by computation on SpecFloat.
- **C44 Loss functions** - Flocq monotonicity lemmas.
- **C45 Counting type selection** - Case analysis.
- **C46 Threshold overflow** - Refutation: UB SignedOverflow.
- **C47 Training is free of undefined behaviour** - No-UB/progress theorem over op lists under explicit size hypotheses.
- **C48 Concurrent prediction** - Two-thread small-step model of predict over the shared cache, refuting interleaving.
- **C49 Padding check** - Bit-level theorem.
- **C50 Aligned buffers** - Address arithmetic model.
- **C51 Random numbers are eight interleaved twisted sequences** - mt.hpp modelled word by word (8 interleaved lanes, lazy refill); the stream is proved equal to an independent recurrence.
- **C52 Initial state** - Initialisation of a fit is proved to be a pure function of the seeded generator's draws, through the laws of initialize_state of both algorithms.
- **C53 Factories move string arguments out of the caller's variables** - The keyword extraction by std::move is modelled with a caller environment: a call returns the moved-from variables; second call theorem.
- **C54 Estimators that compare equal behave equally** - operator== is modelled component by component; equal components are shown to give equal futures (the sign of a zero coefficient, which == ignores, is shown not to matter to any call).
- **C55 Estimators are values: clones and moves** - Objects are modelled as named unique pointers into a heap of states with an arbitrary allocator; a simulation with a one-owner invariant shows that every program refines a store of values, from which the statement about clones follows by induction over interleavings.
- **C56 read_params** - The invariant of histories (the same as for C12) determines the parameter map.
- **C57 Copies of generators** - Generator objects as bytes at an address; the two ways of copying are compared byte by byte.
- **C58 Loads that fail** - from_json_string as a sequence of assignments, each of which may throw; agreement with the model of C30; frame lemma for reading calls; out-of-range clause access after a mixed load.
- **C59 Loading another kind of document** - The same model with the documents of the other kinds: which key is missed first, and (bitwise into classic) the transfer of the invariant and of the votes.
- **C60 Parallel clause loops** - A parallel region: threads taking iterations from a pool, each iteration a program of single reads and writes; footprints of different iterations are disjoint in what they write, so every execution simulates the sequential one.
- **C61 Packed clause outputs** - The same region for the packed overload, whose write is a read-modify-write of a shared block; the racing and the losing schedule are constructed for every pair of clauses in one block.
- **C62 Feedback kernels agree** - The unused kernels of tsetlini_algo_bitwise.hpp as functions on the same matrices; every version is characterised cell by cell (loop invariants over bits, words, rows), and a state is determined by its cells and bits.
- **C63 Only included features matter** - Corollary of the vote semantics (C04, C06, C07): a clause output depends only on the sample bits of its included literals; a clause without literals is pruned.
- **C64 Caching coin tossers** - coin_tosser.hpp as functions on lists of tosses and on bit vectors; the bit tosser simulates the byte tosser; permutation invariant over any number of calls; the number of ones by the float lemmas of C39.
- **C65 Cache of random floats** - frand_cache.hpp as a list with a position; invariant: delivered values and unread values are a permutation of the draws.
- **C66 Containers are values** - containers as a header and a std::vector (start, size) that owns a heap block; refinement to a map from variables to values, with the ownership invariant (each block one owner); every value made by the constructor and calls with positions inside is a table (MemberFacts.v).
- **C67 Results are values of a sum type** - Either and Maybe as unions with the member alive and a flag, contents counted while alive; an interpreter for programs over variables; equality with the interpreter over sums.
- **C68 Chains stop at the first error** - chains of && maps on temporaries by induction on the chain; the two chains of checks instantiated with the checking functions of Params.v.
- **C69 Mapping a named result consumes it** - the general program theorem instantiated: three commands, for every content and function.
- **C70 How automata are stored does not matter** - lockstep of two histories: the automata hold the same numbers although stored in cells of different widths; every feedback kernel, initialisation, update, epoch and call preserves this (relation between two runs that both complete).
- **C71 Weights that cannot grow** - the same lockstep, in which weights are compared only through the votes they contribute; trivial weights contribute what no weights do.
- **C72 Texts accepted as JSON** - lexer and parser of json.hpp as functions on lists of bytes; the grammar of RFC 8259 as an inductive relation between bytes and values; soundness by induction on the parser's steps, completeness by mutual induction on the grammar; termination by a fuel that the length of the text bounds.
- **C73 Saved text is JSON** - the serializer (escaping DFA, digit tables, Grisu2 with its table of powers) as functions with asserts; Grisu2's digit generation stays within the rounding interval (Flocq), so the shortest digits denote the double; invariant: documents of reachable estimators hold only UTF-8 strings and representable numbers.
- **C74 Saving to and loading from a text** - C73, C72 and C30 composed.
- **C75 Only the meaning of a text matters** - corollaries of C72 and of the grammar.
- **C76 Zero byte in a text (defect)** - C72, and no JSON text contains a zero byte (mutual induction on the grammar).
- **C77 Learned samples change nothing** - Induction on the training trace of C28: a saturated sample selects no clause (C19), so the votes of all samples stay as they are.
- **C78 Training moves slowly** - Induction on the training trace of C28 with the single-step rules of C17, C18, C42.
- **C79 Concurrent prediction on a regressor** - As C48, for regressors: many-thread small-step model of predict over the shared clause outputs.
- **C80 Training on a sample never makes its own answer worse** - From the one-step rules (C17, C18, C42): Type I feedback keeps a clause holding on the sample, Type II never makes it hold, weights follow; monotonicity of the votes, first maximum, induction on epochs.
- **C81 What is written to the log** - Calls with the log passed along; each erases to the plain call, its lines are those of `LogSpec`, induction on histories.
- **C82 Scores order classifiers** - The score as a function of the number of agreements (C10), float rounding bounds for the strict order, exact rounding of 1 - 1/n for the defect.
- **C83 A saved model can be evaluated from its document** - `Document` reads and evaluates a JSON value independently of the model; the members written (C30, C74) are those it reads, signs decide inclusion in every reachable state (C12, C13), and its sums are the votes of C04 and C07.
- **C84 A model document written by hand** - `sound_state` (Document.v) says which learning states have the right shape; reading them gives a matrix and weights (`ta_read`) for which, with the parameters and generators of the saved estimator, the invariant of fitted estimators holds (without bounds, or with those of the entries), so the theorems on C83 and C12 apply. For a bitwise estimator `matching_polarity` says which stored bits belong to the entries; the proofs (`EditProps`) are generic in the algorithm, `EditInst` has the two instances. `EditSaved` shows that saved documents are of this shape.

## Files

| Model (code modelled) | Facts | Property theorems |
|---|---|---|
| `Base` (outcome monad, machine integers), `Containers` (basic_bit_vector, basic_bit_matrix, basic_numeric_matrix, from_range) | `ContainersFacts`, `ContainersRefine`, `HugeFacts` | `PropsContainers` (C36-C38), `PropsHuge` (C38) |
| `Floats` (binary32/64 through SpecFloat), `Rng`, `Env` (records `rnd`, `sch`), `CoinTosser` (coin_tosser_exact.hpp, box_muller use, loss functions), `Algo` (tsetlini_algo_common/classic/bitwise) | `Wp`, `ClauseFacts`, `FeedbackFacts`, `BwFeedbackFacts`, `BwSparseFacts`, `CtFacts`, `VoteFacts`, `Laws*` | |
| `Params` (params, factories, tsetlini_params.cpp), `Estimator` (tsetlini.cpp, tsetlini_state.cpp, estimator_state*) | `ParamFacts`, `Est*`, `Reach`, `HistFacts`, `InvFacts`, `Sim*`, `TrainFacts`, `Trace`, `OneStep`, `StepFacts`, `PropFacts`, `DefectFacts`, `InitFacts` | `PropsPredict`, `PropsInv`, `PropsTrain`, `PropsDefects` |
| the float computations of the above | `FloatBase`, `FloatFacts`, `LossFacts`, `TotalFacts`, `TotalProps`, `FloatProps`, `BoxMullerFacts` | `PropsFloat` |
| `Mt` (mt.hpp) | `MtFacts`, `MtInst` | `PropsRng` |
| `KwArgs` (arg_extract.hpp, strong types) | `KwFacts` | `PropsParams` |
| `Json` (parameter documents), `StateJson` (save/load of estimators) | `JsonFacts`, `JsonProps`, `JsonFloat`, `StateFacts`, `StateParams`, `StateProps` | `PropsJson`, `PropsState` |
| `Aligned` (aligned_array.hpp, buffers of mt.hpp, aligned_allocator) | `AlignedFacts` | `PropsAligned` |
| `Concurrency` (two or more predict calls, step by step) | `ConcurrencyFacts`, `ConcurrencyProps` | `PropsConcurrency` |
| `ConcurrencyReg` (the same for regressors) | `ConcurrencyRegFacts`, `ConcurrencyRegProps` | `PropsConcurrencyReg` |
| `Equality` (operator== of estimators) | `EqualityFacts`, `EqualityProps` | `PropsEquality` |
| `Objects` (estimator objects, clone_state, moves), specification `ObjectSpec` | `ObjectProps` | `PropsObjects` |
| `GenMemory` (generator objects in memory) | `GenMemoryFacts` | `PropsGenMemory` |
| `LoadState` (loads step by step, with exceptions) | `LoadFacts`, `LoadProps`, `LoadKind` | `PropsLoad` |
| `Parallel` (the OpenMP loops of tsetlini_algo_classic/bitwise, access by access) | `ParallelFacts`, `ParallelBodies`, `ParallelProps`, `ParallelPacked` | `PropsParallel` |
| `Kernels` (the other feedback kernels of tsetlini_algo_bitwise.hpp) | `KernelFacts`, `KernelProps`, `KernelToy` | `PropsKernels` |
| (no new model) | `Relevance` | `PropsRelevance` |
| `CachedTossers`, `FrandCache` (coin_tosser.hpp, frand_cache.hpp) | `CachedTosserFacts`, `CachedTosserProps`, `FrandFacts`, `TosserToy` | `PropsTossers` |
| `Values` (copy, move, assignment, destruction of the containers, std::vector) | `ValueSpec` (specification and refinement), `ValueProps` | `PropsValues` |
| `Results` (Either, Maybe, Try, lift), `ParamChain` (the parameter checks as chains on objects) | `ResultSpec` (specification with sums), `ResultProps` | `PropsResults` |
| - | `WideLaws`, `WideUpdate`, `WideRun`, `WideProps` (specification: same_but_storage, same_but_weighting, weights_trivial), `ToyWide` | `PropsWide` |
| | `Learned`, `ToyLearned` (training calls as a whole) | `PropsLearned` |
| | `Progress`, `ToyProgress` (training on one sample) | `PropsProgress` |
| logger.hpp and LOG in tsetlini_state.cpp, tsetlini.cpp | `Logging` (model), `LogSpec` (specification), `LoggingFacts`, `ToyLog` | `PropsLog` |
| tsetlini.cpp: evaluate, two estimators compared | `ScoreProps` | `PropsScore` |
| the documents of saved models, evaluated without the library | `Document` (specification), `DocProps` | `PropsDoc` |
| loading edited documents | | `EditProps`, `EditInst`, `EditSaved`, `PropsEdit` |
| `JsonText` (lexer, parser, serializer of json/json.hpp), `Grisu` (its conversion of doubles to digits), `TextIO` (the API functions on texts); specification `JsonGrammar` (RFC 8259), `TextSpec` | `LexFacts`, `DecFloat`, `NumFacts`, `ParseFacts`, `ParseProps`, `GrisuFacts`, `GrisuDigits`, `GrisuProps`, `DumpFacts`, `DumpNum`, `DumpProps`, `TextFacts`, `TextState`, `TextProps` | `PropsText` |

`Toy*.v` hold concrete, computed estimators used to show that the hypotheses of the theorems are met.

## Trusted base

- Coq 8.16.1's kernel, including its `vm_compute` conversion (used for concrete examples, constants and table look-ups).
- The model: that the Gallina functions do what the C++ functions cited in their comments do. Nothing checks this
  mechanically; every definition names the lines it models and says where it simplifies.
- Axioms, as listed by `Print Assumptions` behind every property theorem. None is declared in this development.
  Every property theorem is either *closed under the global context* or lists exactly the four axioms
  `ClassicalDedekindReals.sig_not_dec`, `ClassicalDedekindReals.sig_forall_dec`,
  `FunctionalExtensionality.functional_extensionality_dep` and `Classical_Prop.classic`, all of Coq's standard library
  (they come with the real numbers used by Flocq). The latter are: `C10_evaluate_is_the_accuracy`, `C19_target_threshold`, `C19_opposite_threshold`, `C19_saturated_label_is_left_alone`, `C39_toss_vectors`, `C39_tosser_is_made`, `C39_training_tosses`, `C39_tosses_terminate`, `C39_beyond_2_24_features_refuted`, `C43_feedback_count_is_defined`, `C43_feedback_count_is_proportional`, `C43_box_muller_defined`, `C43_box_muller_undefined_refuted`, `C44_plain_losses`, `C44_mixed_loss`, `C47_classifier_fit_succeeds`, `C47_classifier_partial_fit_succeeds`, `C47_regressor_fit_succeeds`, `C47_regressor_partial_fit_succeeds`, `C47_classifier_calls_are_defined`, `C47_regressor_calls_are_defined`, `C40_float_draws`, `C40_equal_generators`, `C40_generators_satisfy_the_laws`, `C14_one_state_refuted`, `C21_single_label_refuted`, `C24_fit_keeps_weights`, `C46_large_threshold_refuted`, `C52_classifier_initial_state`, `C32_classifier_arguments`, `C32_regressor_arguments`, `C33_classifier_document`, `C33_regressor_document`, `C33_unknown_key`, `C33_reals_are_rounded`, `C34_when_it_throws_refuted`, `C34_when_it_is_undefined_refuted`, `C34_otherwise_it_returns`, `C30_classifier`, `C30_regressor`, `C30_infinite_loss_C1_refuted`, `C31_unfitted_classifier_refuted`, `C31_unfitted_regressor_refuted`, `C54_equal_classifiers`, `C54_equal_regressors`, `C54_same_calls_classifier`, `C54_same_calls_regressor`, `C54_loaded_classifier`, `C54_loaded_regressor`, `C58_mixed_classifier`, `C58_mixed_regressor`, `C58_classifier_refuted`, `C58_regressor_refuted`, `C59_regressor_in_classifier`, `C59_classifier_in_regressor`, `C59_bitwise_in_classic_classifier`, `C59_bitwise_in_classic_regressor`, `C59_classic_in_bitwise_classifier`, `C59_classic_in_bitwise_regressor`, `C64_number_of_ones`, `C64_cache_tosser`, `C64_few_features_refuted`, `C72_reader`, `C72_unambiguous`, `C72_factories`, `C72_loading`, `C72_without_zero`, `C73_classifier`, `C73_regressor`, `C73_doubles_are_exact`, `C74_classifier`, `C74_regressor`, `C74_unfitted_refuted`, `C75_same_value`, `C75_padding`, `C75_member_order`, `C76_zero_byte_refuted`, `C77_classifier`, `C77_classifier_decision_function`, `C78_classifier`, `C78_regressor`, `C82_scores_order_classifiers`, `C82_score_one`, `C82_score_one_large_refuted`, `C83_classifier`, `C83_regressor`, `C83_readable`, `C84_classifier`, `C84_regressor`, `C84_classifier_bitwise`, `C84_regressor_bitwise`, `C84_saved_classifier`, `C84_saved_regressor`, `C84_saved_classifier_bitwise`, `C84_saved_regressor_bitwise`. All others are closed.
- A module-level listing (as `vcheck` or `coqchk` prints) also shows opaque *module* components of libraries that are loaded
  but not used by any proof: `Coq.ssr.ssrunder.Under_rel.*` (sealed module of the ssreflect plugin library) and
  `Rdefinitions.RbaseSymbolsImpl.*` / `RinvImpl.*` (the sealed definition of the real operations in the standard library).
- The definitions of the specifications (`Spec.v`, `ParamSpec.v`, `JsonSpec.v`, `JsonGrammar.v`, and what the reading guide at the head of each
  `Props*.v` names).

## Assumptions made explicit as hypotheses

- `rnd_ok`: the generators stay in their range (proved for the library's Mersenne twister: `mt_rnd_ok`), `std::shuffle` returns a permutation.
- `sch_ok`: an OpenMP `parallel for` runs every iteration of its range exactly once, in any order, chosen anew for every region
  (that interleaving iterations access by access adds nothing is proved: C60).
- `fair`-type hypotheses for the rejection loop of the coin tosser (`OutOfFuel` stands for a loop that has not ended).
- sizes whose products fit 32-bit arithmetic, thresholds below 2^30, at least two labels: only where a theorem says so; what happens
  outside is stated by the `_refuted` theorems.

## What is not modelled

- Text: log output, message strings of errors (only the status). Of nlohmann::json only what the library uses is modelled: parsing a
  std::string and dumping to one, without comments, callbacks, pretty printing or binary formats; error positions are not. The C library's
  strtod is taken to round correctly (as glibc's does) in the "C" locale. The theorems before C72 speak about documents and `reparse`, the change values undergo
  when written and read; C72-C74 prove that this is what the text layer does.
- Memory allocation failure, `std::bad_alloc`, stack exhaustion; time and performance; SIMD code generation.
- Weak memory: concurrency (C48, C60, C61, C79) is sequentially consistent, one memory access per step; data races are defined separately.
- `std::shuffle`'s particular algorithm (any permutation drawn from the generator), `std::hash` order of `unordered_map`.
- The numerical content of the Box-Muller tables beyond what C43 assumes of it (two functions of the index in `rnd`, hypothesis `bm_tables`: the formulas of box_muller_approx.cpp up to 1e-5).
- The python/R bindings, examples, benchmarks and tests.
- More than INT_MAX features (narrowing of `size()` to int) is an error outcome; `max_element` of an empty range gives index 0.
- `double` to `float` conversions out of range give infinity (as IEEE hardware does); `double` to `int` out of range is undefined behaviour.
