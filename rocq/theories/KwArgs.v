(** * Model of keyword arguments: lib/include/arg_extract.hpp, lib/include/is_subset_of.hpp and their use in
      lib/include/tsetlini.hpp (make_classifier_*, make_regressor_*, fit, partial_fit).  Proofs are elsewhere. *)
From Verif Require Export Params.
Local Open Scope Z_scope.

(** tsetlini_strong_params.hpp: one constructor per strong type a user may pass *)
Inductive kwarg :=
| KClfClauses (z : Z)      (* number_of_physical_classifier_clauses_per_label_t *)
| KRegClauses (z : Z)      (* number_of_physical_regressor_clauses_t *)
| KStates (z : Z)          (* number_of_states_t *)
| KSpecificity (x : float32) (* specificity_t *)
| KThreshold (z : Z)       (* threshold_t *)
| KWeighted (b : bool)     (* weighted_flag_t *)
| KMaxWeight (z : Z)       (* max_weight_t *)
| KBoost (b : bool)        (* boost_tpf_t *)
| KJobs (z : Z)            (* number_of_jobs_t *)
| KVerbose (b : bool)      (* verbosity_t *)
| KCounting (s : string)   (* counting_type_t *)
| KTile (z : Z)            (* clause_output_tile_size_t *)
| KLoss (s : string)       (* loss_fn_name_t *)
| KLossC1 (x : float32)    (* loss_fn_C1_t *)
| KBoxMuller (b : bool)    (* box_muller_flag_t *)
| KSeed (z : Z)            (* random_seed_t *)
| KMaxLabels (z : Z)       (* max_number_of_labels_t *)
| KEpochs (n : nat).       (* number_of_epochs_t *)
(** the C++ type of an argument *)
Inductive kwtype :=
| TClfClauses | TRegClauses | TStates | TSpecificity | TThreshold | TWeighted | TMaxWeight | TBoost | TJobs | TVerbose | TCounting
| TTile | TLoss | TLossC1 | TBoxMuller | TSeed | TMaxLabels | TEpochs.
Global Instance kwtype_eq_dec : EqDecision kwtype. Proof. solve_decision. Defined.
Definition kwtype_of (k : kwarg) : kwtype :=
  match k with
  | KClfClauses _ => TClfClauses | KRegClauses _ => TRegClauses | KStates _ => TStates | KSpecificity _ => TSpecificity
  | KThreshold _ => TThreshold | KWeighted _ => TWeighted | KMaxWeight _ => TMaxWeight | KBoost _ => TBoost | KJobs _ => TJobs
  | KVerbose _ => TVerbose | KCounting _ => TCounting | KTile _ => TTile | KLoss _ => TLoss | KLossC1 _ => TLossC1
  | KBoxMuller _ => TBoxMuller | KSeed _ => TSeed | KMaxLabels _ => TMaxLabels | KEpochs _ => TEpochs
  end.

(** is_subset_of.hpp:16-28 and the rule of std::get<T> for tuples: every argument type is accepted, and no type occurs twice among those
    looked up (a program violating this does not compile).  Simplification: a duplicated type is rejected even where it is never looked up. *)
Definition kw_compiles (accepted : list kwtype) (args : list kwarg) : Prop :=
  Forall (fun k => kwtype_of k ∈ accepted) args /\ NoDup (map kwtype_of args).

(** std::get<T &&>(std::forward_as_tuple(std::move(args)...)): the argument of type T; overload resolution on std::is_same picks the
    default overload when there is none (arg_extract.hpp:31-74) *)
Definition kw_find (t : kwtype) (args : list kwarg) : option kwarg := snd <$> list_find (fun k => kwtype_of k = t) args.

(** extract_or / maybe_extract at each type (arg_extract.hpp:31-97); [d] is the default *)
Definition kw_Z (t : kwtype) (d : Z) (args : list kwarg) : Z :=
  match kw_find t args with
  | Some (KClfClauses z | KRegClauses z | KStates z | KThreshold z | KMaxWeight z | KJobs z | KTile z | KSeed z | KMaxLabels z) => z
  | _ => d
  end.
Definition kw_bool (t : kwtype) (d : bool) (args : list kwarg) : bool :=
  match kw_find t args with Some (KWeighted b | KBoost b | KVerbose b | KBoxMuller b) => b | _ => d end.
Definition kw_real (t : kwtype) (d : float32) (args : list kwarg) : float32 :=
  match kw_find t args with Some (KSpecificity x | KLossC1 x) => x | _ => d end.
Definition kw_str (t : kwtype) (d : string) (args : list kwarg) : string :=
  match kw_find t args with Some (KCounting s | KLoss s) => s | _ => d end.
Definition kw_seed (args : list kwarg) : option Z := match kw_find TSeed args with Some (KSeed z) => Some z | _ => None end.
Definition kw_epochs (d : nat) (args : list kwarg) : nat := match kw_find TEpochs args with Some (KEpochs n) => n | _ => d end.

(** tsetlini.hpp:146-164, 450-468: accepted types of make_classifier_classic / make_classifier_bitwise *)
Definition clf_accepts : list kwtype :=
  [TClfClauses; TStates; TSpecificity; TThreshold; TWeighted; TMaxWeight; TBoost; TJobs; TVerbose; TCounting; TTile; TSeed].
(** tsetlini.hpp:166-180, 470-484: the arguments handed to make_classifier_params_from_args *)
Definition clf_kw_args (args : list kwarg) : clf_args :=
  ClfArgs (kw_Z TClfClauses 12 args) (kw_Z TStates 100 args) (kw_real TSpecificity (f32_of_Z 2) args) (kw_Z TThreshold 15 args)
    (kw_bool TWeighted false args) (kw_Z TMaxWeight int_max args) (kw_bool TBoost false args) (kw_Z TJobs (-1) args)
    (kw_bool TVerbose false args) (kw_str TCounting "auto" args) (kw_Z TTile 16 args) (kw_seed args).
(** tsetlini.hpp:146-183, 450-487 *)
Definition make_classifier (hw rd : Z) (args : list kwarg) : outcome (either params) :=
  make_classifier_params_from_args hw rd (clf_kw_args args).

(** tsetlini.hpp:292-313, 597-618 *)
Definition reg_accepts : list kwtype :=
  [TRegClauses; TStates; TSpecificity; TThreshold; TWeighted; TMaxWeight; TBoost; TJobs; TVerbose; TCounting; TTile; TLoss; TLossC1;
   TBoxMuller; TSeed].
(** tsetlini.hpp:315-332, 620-638 *)
Definition reg_kw_args (args : list kwarg) : reg_args :=
  RegArgs (kw_Z TRegClauses 20 args) (kw_Z TStates 100 args) (kw_real TSpecificity (f32_of_Z 2) args) (kw_Z TThreshold 15 args)
    (kw_bool TWeighted true args) (kw_Z TMaxWeight int_max args) (kw_bool TBoost false args) (kw_Z TJobs (-1) args)
    (kw_bool TVerbose false args) (kw_str TCounting "auto" args) (kw_Z TTile 16 args) (kw_str TLoss "MSE" args)
    (kw_real TLossC1 (S754_zero false) args) (kw_bool TBoxMuller false args) (kw_seed args).
Definition make_regressor (hw rd : Z) (args : list kwarg) : outcome (either params) :=
  make_regressor_params_from_args hw rd (reg_kw_args args).

(** tsetlini.hpp:186-213, 490-517: fit and partial_fit of classifiers: max_number_of_labels is required, epochs default to 100 *)
Definition fit_accepts : list kwtype := [TMaxLabels; TEpochs].
Definition fit_compiles (args : list kwarg) : Prop := kw_compiles fit_accepts args /\ TMaxLabels ∈ map kwtype_of args.
Definition fit_kw_args (args : list kwarg) : Z * nat := (kw_Z TMaxLabels 0 args, kw_epochs 100 args).

(** ** What the call leaves in the caller's variables.
    extract_or returns an rvalue reference to the argument itself unless it is const (arg_extract.hpp:31-56), and
    make_*_params_from_args takes its parameters by value (tsetlini_params.hpp:30-60), so a string argument is moved from.
    [moved s] is what std::string leaves behind ("valid but unspecified"); numbers and flags are copied. *)
Section Moved.
  Context (moved : string -> string).
  (** a variable the caller passes: its value and whether it is const *)
  Definition kw_after (v : kwarg * bool) : kwarg * bool :=
    match v with
    | (KCounting s, false) => (KCounting (moved s), false)
    | (KLoss s, false) => (KLoss (moved s), false)
    | _ => v
    end.
  (** make_classifier_*(vars...): the result, and the variables afterwards *)
  Definition call_make_classifier (hw rd : Z) (vars : list (kwarg * bool)) : outcome (either params) * list (kwarg * bool) :=
    (make_classifier hw rd (map fst vars), map kw_after vars).
  Definition call_make_regressor (hw rd : Z) (vars : list (kwarg * bool)) : outcome (either params) * list (kwarg * bool) :=
    (make_regressor hw rd (map fst vars), map kw_after vars).
End Moved.
