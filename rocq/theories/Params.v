(** * Model of parameters: lib/include/tsetlini_params.hpp, lib/src/params_companion.hpp, lib/src/tsetlini_params.cpp,
      lib/include/arg_extract.hpp. Proofs are elsewhere. *)
From Verif Require Export Base Floats.
From stdpp Require Export strings gmap.
Local Open Scope Z_scope.

(** tsetlini_status_code.hpp; message texts are not modelled *)
Inductive status := S_OK | S_BAD_JSON | S_VALUE_ERROR | S_NOT_FITTED_ERROR.
Global Instance status_eq_dec : EqDecision status. Proof. solve_decision. Defined.

(** either.hpp: Either<status_message_t, T> *)
Inductive either (A : Type) := Left (s : status) | Right (a : A).
Arguments Left {A}. Arguments Right {A}.
(** rightFlatMap / rightMap with possibly throwing functions *)
Definition right_flat_map {A B} (x : either A) (f : A -> outcome (either B)) : outcome (either B) :=
  match x with Left s => Ret (Left s) | Right a => f a end.
Definition right_map {A B} (x : either A) (f : A -> outcome B) : outcome (either B) :=
  match x with Left s => Ret (Left s) | Right a => let* b := f a in Ret (Right b) end.

(** tsetlini_params.hpp:23: std::variant<int, seed_type, real_type, bool, none_type, std::string> *)
Inductive pvalue := PInt (z : Z) | PSeed (z : Z) | PReal (x : float32) | PBool (b : bool) | PNone | PStr (s : string).
(** tsetlini_params.hpp:24: unordered_map; iteration order is never observable in the modelled code *)
Notation params := (gmap string pvalue).

(** map.at(key) *)
Definition p_at (p : params) (k : string) : outcome pvalue :=
  match p !! k with Some v => Ret v | None => Throw OutOfRange end.
(** std::get<T> *)
Definition get_int (v : pvalue) : outcome Z := match v with PInt z => Ret z | _ => Throw BadVariant end.
Definition get_seed (v : pvalue) : outcome Z := match v with PSeed z => Ret z | _ => Throw BadVariant end.
Definition get_real (v : pvalue) : outcome float32 := match v with PReal x => Ret x | _ => Throw BadVariant end.
Definition get_bool (v : pvalue) : outcome bool := match v with PBool b => Ret b | _ => Throw BadVariant end.
Definition get_str (v : pvalue) : outcome string := match v with PStr s => Ret s | _ => Throw BadVariant end.
Definition at_int p k := let* v := p_at p k in get_int v.
Definition at_seed p k := let* v := p_at p k in get_seed v.
Definition at_real p k := let* v := p_at p k in get_real v.
Definition at_bool p k := let* v := p_at p k in get_bool v.
Definition at_str p k := let* v := p_at p k in get_str v.

(** params_companion.hpp:23-178 *)
Definition P_n_jobs (p : params) := at_int p "n_jobs".
Definition P_counting_type (p : params) := at_str p "counting_type".
Definition P_tile (p : params) := at_int p "clause_output_tile_size".
Definition P_random_state (p : params) := at_seed p "random_state".
Definition P_verbose (p : params) := at_bool p "verbose".
Definition P_number_of_labels (p : params) := at_int p "number_of_labels".
Definition P_number_of_features (p : params) := at_int p "number_of_features".
Definition P_s (p : params) := at_real p "s".
Definition P_threshold (p : params) := at_int p "threshold".
Definition P_boost (p : params) := let* z := at_int p "boost_true_positive_feedback" in Ret (negb (z =? 0)).
Definition P_number_of_states (p : params) := at_int p "number_of_states".
(** int division truncates; the value is non-negative in every accepted set *)
Definition P_outputs_per_label (p : params) := let* z := at_int p "number_of_clauses_per_label" in Ret (Z.quot z 2).
Definition P_clf_outputs (p : params) :=
  let* l := P_number_of_labels p in let* o := P_outputs_per_label p in ci32 (l * o).
Definition P_clauses_per_label (p : params) := at_int p "number_of_clauses_per_label".
Definition P_clf_clauses (p : params) :=
  let* l := P_number_of_labels p in let* c := P_clauses_per_label p in ci32 (l * c).
Definition P_reg_clauses (p : params) := at_int p "number_of_regressor_clauses".
Definition P_reg_outputs (p : params) := let* z := at_int p "number_of_regressor_clauses" in Ret (Z.quot z 2).
Definition P_weighted (p : params) := at_bool p "weighted".
Definition P_box_muller (p : params) := at_bool p "box_muller".
Definition P_max_weight (p : params) := at_int p "max_weight".
Definition P_loss_fn (p : params) := at_str p "loss_fn".
Definition P_loss_C1 (p : params) := at_real p "loss_fn_C1".

(** ** tsetlini_params.cpp *)

(** 24-44 *)
Definition default_classifier_params : params := list_to_map [
  ("number_of_clauses_per_label", PInt 12);
  ("number_of_states", PInt 100);
  ("s", PReal (f32_of_Z 2));
  ("threshold", PInt 15);
  ("weighted", PBool false);
  ("max_weight", PInt int_max);
  ("boost_true_positive_feedback", PInt 0);
  ("n_jobs", PInt (-1));
  ("verbose", PBool false);
  ("counting_type", PStr "auto");
  ("clause_output_tile_size", PInt 16);
  ("random_state", PNone);
  ("number_of_labels", PNone);
  ("number_of_features", PNone)].
(** 47-70 *)
Definition default_regressor_params : params := list_to_map [
  ("number_of_regressor_clauses", PInt 20);
  ("number_of_states", PInt 100);
  ("s", PReal (f32_of_Z 2));
  ("threshold", PInt 15);
  ("weighted", PBool true);
  ("max_weight", PInt int_max);
  ("boost_true_positive_feedback", PInt 0);
  ("n_jobs", PInt (-1));
  ("verbose", PBool false);
  ("counting_type", PStr "auto");
  ("clause_output_tile_size", PInt 16);
  ("loss_fn", PStr "MSE");
  ("loss_fn_C1", PReal (S754_zero false));
  ("box_muller", PBool false);
  ("random_state", PNone);
  ("number_of_features", PNone)].

(** 96-103 merge: rv = rhs; rv.merge(lhs) keeps rhs's entries *)
Definition merge_params (lhs rhs : params) : params := rhs ∪ lhs.

Section Factories.
  (** std::thread::hardware_concurrency() and std::random_device{}() *)
  Context (hw : Z) (rd : Z).

  Definition check (b : bool) (p : params) : outcome (either params) := Ret (if b then Right p else Left S_BAD_JSON).

  (** normalize_n_jobs: std::max<int>(1, hardware_concurrency()) *)
  Definition normalize_n_jobs (p : params) : outcome params :=
    let* n := P_n_jobs p in
    Ret (if n =? -1 then <["n_jobs" := PInt (Z.max 1 (wrap_s 32 hw))]> p else p).
  (** normalize_random_state *)
  Definition normalize_random_state (p : params) : outcome params :=
    let* v := p_at p "random_state" in
    Ret (match v with PNone => <["random_state" := PSeed (u32 rd)]> p | _ => p end).
  (** assert_counting_type_enumeration *)
  Definition assert_counting_type (p : params) : outcome (either params) :=
    let* s := P_counting_type p in
    check ((s =? "auto")%string || (s =? "int8")%string || (s =? "int16")%string || (s =? "int32")%string) p.
  (** assert_n_jobs *)
  Definition assert_n_jobs (p : params) : outcome (either params) :=
    let* n := P_n_jobs p in check ((n =? -1) || (1 <=? n)) p.
  (** assert_boost_true_positive_feedback *)
  Definition assert_boost (p : params) : outcome (either params) :=
    let* v := at_int p "boost_true_positive_feedback" in check (negb ((v <? 0) || (1 <? v))) p.
  (** assert_number_of_states *)
  Definition assert_number_of_states (p : params) : outcome (either params) :=
    let* v := at_int p "number_of_states" in check (negb (v <? 1)) p.
  (** assert_specificity: (value < 1.0) or isinf or isnan; comparison in double *)
  Definition assert_specificity (p : params) : outcome (either params) :=
    let* v := at_real p "s" in
    check (negb (f_lt (f64_of_f32 v) (f64_of_Z 1) || negb (is_finite_sf v))) p.
  (** assert_max_weight *)
  Definition assert_max_weight (p : params) : outcome (either params) :=
    let* v := P_max_weight p in check (negb (v <? 1)) p.
  (** assert_threshold *)
  Definition assert_threshold (p : params) : outcome (either params) :=
    let* v := at_int p "threshold" in check (negb (v <? 1)) p.
  (** assert_number_of_physical_clauses_per_label (C++ % truncates: Z.rem) *)
  Definition assert_clauses_per_label (p : params) : outcome (either params) :=
    let* v := P_clauses_per_label p in check (negb ((v <? 1) || negb (Z.rem v 4 =? 0))) p.
  (** assert_number_of_regressor_clauses *)
  Definition assert_regressor_clauses (p : params) : outcome (either params) :=
    let* v := P_reg_clauses p in check (negb ((v <? 1) || negb (Z.rem v 2 =? 0))) p.
  (** assert_clause_output_tile_size_enumeration *)
  Definition assert_tile (p : params) : outcome (either params) :=
    let* v := P_tile p in check ((v =? 16) || (v =? 32) || (v =? 64) || (v =? 128)) p.
  (** assert_loss_function *)
  Definition assert_loss (p : params) : outcome (either params) :=
    let* v := at_str p "loss_fn" in
    check ((v =? "L2")%string || (v =? "MSE")%string || (v =? "MAE")%string || (v =? "L1")%string
           || (v =? "berHu")%string || (v =? "L1+2")%string) p.

  Notation "x >>= f" := (obind x (fun e => right_flat_map e f)) (at level 58, left associativity).
  Notation "x >>| f" := (obind x (fun e => right_map e f)) (at level 58, left associativity).

  (** the chain of make_classifier_params_from_{json,args} after the parameters were collected *)
  Definition classifier_pipeline (x : either params) : outcome (either params) :=
    Ret x >>= assert_n_jobs >>= assert_number_of_states >>= assert_specificity >>= assert_clauses_per_label
    >>= assert_boost >>= assert_threshold >>= assert_max_weight >>| normalize_n_jobs >>| normalize_random_state
    >>= assert_counting_type >>= assert_tile.
  (** the chain of make_regressor_params_from_{json,args} *)
  Definition regressor_pipeline (x : either params) : outcome (either params) :=
    Ret x >>= assert_n_jobs >>= assert_number_of_states >>= assert_specificity >>= assert_regressor_clauses
    >>= assert_boost >>= assert_threshold >>= assert_max_weight >>| normalize_n_jobs >>| normalize_random_state
    >>= assert_counting_type >>= assert_loss >>= assert_tile.

  (** make_classifier_params_from_args. Typed arguments; boost is a bool. *)
  Record clf_args := ClfArgs {
    ca_clauses : Z; ca_states : Z; ca_s : float32; ca_threshold : Z; ca_weighted : bool; ca_max_weight : Z;
    ca_boost : bool; ca_n_jobs : Z; ca_verbose : bool; ca_counting : string; ca_tile : Z; ca_seed : option Z }.
  Definition clf_args_params (a : clf_args) : params :=
    <["random_state" := match ca_seed a with Some s => PSeed s | None => PNone end]>
    (<["clause_output_tile_size" := PInt (ca_tile a)]>
    (<["counting_type" := PStr (ca_counting a)]>
    (<["verbose" := PBool (ca_verbose a)]>
    (<["n_jobs" := PInt (ca_n_jobs a)]>
    (<["boost_true_positive_feedback" := PInt (if ca_boost a then 1 else 0)]>
    (<["max_weight" := PInt (ca_max_weight a)]>
    (<["weighted" := PBool (ca_weighted a)]>
    (<["threshold" := PInt (ca_threshold a)]>
    (<["s" := PReal (ca_s a)]>
    (<["number_of_states" := PInt (ca_states a)]>
    (<["number_of_clauses_per_label" := PInt (ca_clauses a)]> ∅))))))))))).
  Definition make_classifier_params_from_args (a : clf_args) : outcome (either params) :=
    classifier_pipeline (Right (clf_args_params a)).

  (** make_regressor_params_from_args *)
  Record reg_args := RegArgs {
    ra_clauses : Z; ra_states : Z; ra_s : float32; ra_threshold : Z; ra_weighted : bool; ra_max_weight : Z;
    ra_boost : bool; ra_n_jobs : Z; ra_verbose : bool; ra_counting : string; ra_tile : Z;
    ra_loss : string; ra_C1 : float32; ra_box_muller : bool; ra_seed : option Z }.
  Definition reg_args_params (a : reg_args) : params :=
    <["random_state" := match ra_seed a with Some s => PSeed s | None => PNone end]>
    (<["box_muller" := PBool (ra_box_muller a)]>
    (<["loss_fn_C1" := PReal (ra_C1 a)]>
    (<["loss_fn" := PStr (ra_loss a)]>
    (<["clause_output_tile_size" := PInt (ra_tile a)]>
    (<["counting_type" := PStr (ra_counting a)]>
    (<["verbose" := PBool (ra_verbose a)]>
    (<["n_jobs" := PInt (ra_n_jobs a)]>
    (<["boost_true_positive_feedback" := PInt (if ra_boost a then 1 else 0)]>
    (<["max_weight" := PInt (ra_max_weight a)]>
    (<["weighted" := PBool (ra_weighted a)]>
    (<["threshold" := PInt (ra_threshold a)]>
    (<["s" := PReal (ra_s a)]>
    (<["number_of_states" := PInt (ra_states a)]>
    (<["number_of_regressor_clauses" := PInt (ra_clauses a)]> ∅)))))))))))))).
  Definition make_regressor_params_from_args (a : reg_args) : outcome (either params) :=
    regressor_pipeline (Right (reg_args_params a)).
End Factories.
