(** * Model of what the library writes to std::clog: lib/src/logger.hpp and its uses in tsetlini_state.cpp and tsetlini.cpp.
      Proofs are elsewhere.

    [LOG(level) << a << b] evaluates a and b, and builds a logger_impl when the variable [verbose] in scope is true, whose
    destructor writes "LEVEL:module:ab" to std::clog (logger.hpp:66-81, 107-114, 147-158); when it is false a stream that discards
    everything (logger.hpp:88-105).  logger_impl compares its level with itself, so that every level is written.

    Simplifications: a line is its level, module, text and value; how a stream prints the value is not modelled.  Calls are the ones
    of Estimator.v with the log added; the log is passed along, and grows at the end. *)
From Verif Require Export Estimator.
Local Open Scope Z_scope.
Local Open Scope string_scope.
Local Open Scope list_scope.
Local Open Scope Z_scope.

(** logger.hpp:22-29 *)
Inductive log_level := LError | LWarn | LDebug | LInfo | LTrace.
(** the value after the text of a line: all lines have at most one *)
Inductive log_item := IInt (z : Z) | IBool (b : bool) | IFloat (x : float32) | IString (s : string) | INothing.
Record log_line := Line { ll_level : log_level; ll_module : string; ll_text : string; ll_item : log_item }.
Notation log := (list log_line).

(** logger.hpp:158 LOG *)
Definition LOG (verbose : bool) (l : log_level) (module text : string) (i : log_item) (w : log) : log :=
  if verbose then w ++ [Line l module text i] else w.

(** tsetlini_state.cpp:1 LOG_MODULE *)
Definition core := "tsetlini-core".
(** tsetlini_state.cpp:23-40 log_classifier_params *)
Definition log_classifier_params (p : params) (v : bool) (w : log) : outcome log :=
  let* z := P_number_of_labels p in let w := LOG v LInfo core "number_of_labels: " (IInt z) w in
  let* z := P_clf_clauses p in let w := LOG v LInfo core "number_of_clauses: " (IInt z) w in
  let* z := P_number_of_features p in let w := LOG v LInfo core "number_of_features: " (IInt z) w in
  let* z := P_s p in let w := LOG v LInfo core "s: " (IFloat z) w in
  let* z := P_number_of_states p in let w := LOG v LInfo core "number_of_states: " (IInt z) w in
  let* z := P_threshold p in let w := LOG v LInfo core "threshold: " (IInt z) w in
  let* b := P_weighted p in let w := LOG v LInfo core "weighted: " (IBool b) w in
  let* w := (if b then let* z := P_max_weight p in Ret (LOG v LInfo core "max_weight: " (IInt z) w) else Ret w) in
  let* s := P_counting_type p in let w := LOG v LInfo core "counting_type: " (IString s) w in
  let* z := P_n_jobs p in let w := LOG v LInfo core "n_jobs: " (IInt z) w in
  let* z := P_random_state p in Ret (LOG v LInfo core "random_state: " (IInt z) w).
(** tsetlini_state.cpp:58-76 log_regressor_params *)
Definition log_regressor_params (p : params) (v : bool) (w : log) : outcome log :=
  let* z := P_reg_clauses p in let w := LOG v LInfo core "number_of_clauses: " (IInt z) w in
  let* z := P_number_of_features p in let w := LOG v LInfo core "number_of_features: " (IInt z) w in
  let* z := P_s p in let w := LOG v LInfo core "s: " (IFloat z) w in
  let* z := P_number_of_states p in let w := LOG v LInfo core "number_of_states: " (IInt z) w in
  let* z := P_threshold p in let w := LOG v LInfo core "threshold: " (IInt z) w in
  let* b := P_weighted p in let w := LOG v LInfo core "weighted: " (IBool b) w in
  let* w := (if b then let* z := P_max_weight p in Ret (LOG v LInfo core "max_weight: " (IInt z) w) else Ret w) in
  let* s := P_loss_fn p in let w := LOG v LInfo core "loss_fn: " (IString s) w in
  let* z := P_loss_C1 p in let w := LOG v LInfo core "loss_fn(C1): " (IFloat z) w in
  let* b := P_box_muller p in let w := LOG v LInfo core "box_muller: " (IBool b) w in
  let* s := P_counting_type p in let w := LOG v LInfo core "counting_type: " (IString s) w in
  let* z := P_n_jobs p in let w := LOG v LInfo core "n_jobs: " (IInt z) w in
  let* z := P_random_state p in Ret (LOG v LInfo core "random_state: " (IInt z) w).

(** tsetlini_state.cpp:93-120 normalize_counting_type with its log *)
Definition normalize_counting_type_logged (ct : string) (N : Z) (v : bool) (w : log) : string * log :=
  if (N <=? 127) && ((ct =? "auto")%string || (ct =? "int8")%string) then ("int8", LOG v LTrace core "Selected int8 for ta_state" INothing w)
  else if (N <=? 32767) && ((ct =? "auto")%string || (ct =? "int8")%string || (ct =? "int16")%string) then ("int16", LOG v LTrace core "Selected int16 for ta_state" INothing w)
  else ("int32", LOG v LTrace core "Selected int32 for ta_state" INothing w).

Section Logged.
  Context {R : rnd} (S : sch) (A : algo R).
  Notation G := (eG R).
  Notation F := (eF R).
  Notation smp := (a_smp A).
  Notation ta := (tastate (a_pol A)).
  Notation cache := (cache (eS S)).
  Notation est := (est (a_pol A) (eS S) G F).

  (** tsetlini_state.cpp:216-246 initialize_state *)
  Definition initialize_state_logged (clauses outputs : params -> outcome Z) (reset : params -> cache -> outcome cache)
             (log_params : params -> bool -> log -> outcome log) (e : est) (w : log) : outcome (est * log) :=
    let p := e_params e in
    let* v := P_verbose p in
    let* seed := P_random_state p in
    let igen := g_init R (wrap_s 32 seed) in
    let fgen := f_init R (wrap_s 32 seed) in
    let* w := log_params p v w in
    let* N := P_number_of_states p in
    let* ncl := clauses p in
    let* nout := outputs p in
    let* nf := P_number_of_features p in
    let* ct := P_counting_type p in
    let '(ct, w) := normalize_counting_type_logged ct N v w in
    let* weighted := P_weighted p in
    let* '(m, pol, igen) := a_init A (counting_width ct) (Z.to_nat ncl) (Z.to_nat nf) igen in
    let ws := if weighted then resize0 (Z.to_nat nout) (ta_weights (e_ta e)) else ta_weights (e_ta e) in
    let* c := reset p (e_cache e) in
    Ret (Est p (TA m ws pol) c igen fgen, w).
  Definition clf_initialize_logged := initialize_state_logged P_clf_clauses P_clf_outputs (clf_cache_reset S) log_classifier_params.
  Definition reg_initialize_logged := initialize_state_logged P_reg_clauses P_reg_outputs (reg_cache_reset S) log_regressor_params.

  (** tsetlini.cpp:701: the line of epoch number [i] + 1 *)
  Definition log_epoch (v : bool) (i : nat) (w : log) : log := LOG v LInfo "tsetlini" "Epoch " (IInt (Z.of_nat i + 1)) w.

  (** tsetlini.cpp:671-735 fit_classifier_online_impl *)
  Definition clf_fit_online_logged (e : est) (X : list smp) (y : list Z) (epochs : nat) (w : log) : outcome (status * est * log) :=
    let p := e_params e in
    let* L := P_number_of_labels p in
    let* opl := P_outputs_per_label p in
    let* T := P_threshold p in
    let* max_weight := P_max_weight p in
    let* N := P_number_of_states p in
    let* _ := P_s p in
    let* boost := P_boost p in
    let* tile := P_tile p in
    let* n_jobs := P_n_jobs p in
    let* v := P_verbose p in
    let* '(g, f, s, c, w) :=
      ofor 0 epochs (e_igen e, e_fgen e, e_ta e, e_cache e, w)
        (fun i '(st, w) =>
           let w := log_epoch v i w in
           let* st := clf_epoch S A p X y L opl T max_weight N boost tile n_jobs st in
           Ret (st, w)) in
    Ret (S_OK, Est p s c g f, w).

  (** tsetlini.cpp:738-776 fit_classifier_impl *)
  Definition clf_fit_logged (e : est) (X : list smp) (y : list Z) (max_labels : Z) (epochs : nat) (w : log) : outcome (status * est * log) :=
    let* st := check_X_y A X y in
    if decide (st <> S_OK) then Ret (st, e, w) else
    let* hi := list_max y in
    let* hi1 := ci32 (hi + 1) in
    let L := Z.max hi1 max_labels in
    let* st := check_labels y in
    if decide (st <> S_OK) then Ret (st, e, w) else
    let* nf := front_size A X in
    let* nf := ci32 (Z.of_nat nf) in
    let p := <["number_of_features" := PInt nf]> (<["number_of_labels" := PInt L]> (e_params e)) in
    let* '(e, w) := clf_initialize_logged (with_params S A p e) w in
    clf_fit_online_logged e X y epochs w.

  (** tsetlini.cpp:1002-1033 fit_classifier_online_with_input_check *)
  Definition clf_fit_online_checked_logged (e : est) (X : list smp) (y : list Z) (max_labels : Z) (epochs : nat) (w : log)
    : outcome (status * est * log) :=
    let* st := check_X_y A X y in
    if decide (st <> S_OK) then Ret (st, e, w) else
    let* nf := P_number_of_features (e_params e) in
    let* st := check_X A X nf in
    if decide (st <> S_OK) then Ret (st, e, w) else
    let* L := P_number_of_labels (e_params e) in
    let* ml := ci32 (L - 1) in
    let* st := check_labels_max y ml in
    if decide (st <> S_OK) then Ret (st, e, w) else
    clf_fit_online_logged e X y epochs w.

  (** tsetlini.cpp:1036-1052, 1342-1358 partial_fit_impl (classifiers) *)
  Definition clf_partial_fit_logged (e : est) (X : list smp) (y : list Z) (max_labels : Z) (epochs : nat) (w : log)
    : outcome (status * est * log) :=
    if is_fitted A (e_ta e) then clf_fit_online_checked_logged e X y max_labels epochs w
    else clf_fit_logged e X y max_labels epochs w.

  (** tsetlini.cpp:833-896 fit_regressor_online_impl *)
  Definition reg_fit_online_logged (e : est) (X : list smp) (y : list Z) (epochs : nat) (w : log) : outcome (status * est * log) :=
    let p := e_params e in
    let* n := P_reg_outputs p in
    let* T := P_threshold p in
    let* max_weight := P_max_weight p in
    let* N := P_number_of_states p in
    let* _ := P_s p in
    let* boost := P_boost p in
    let* tile := P_tile p in
    let* n_jobs := P_n_jobs p in
    let* v := P_verbose p in
    let* name := P_loss_fn p in
    let* C1 := P_loss_C1 p in
    let* loss := make_loss_fn name C1 in
    let* bm := P_box_muller p in
    let* '(g, s, c, w) :=
      ofor 0 epochs (e_igen e, e_ta e, e_cache e, w)
        (fun i '(st, w) =>
           let w := log_epoch v i w in
           let* st := reg_epoch S A X y T n N boost max_weight loss bm n_jobs tile st in
           Ret (st, w)) in
    Ret (S_OK, Est p s c g (e_fgen e), w).

  (** tsetlini.cpp:899-928 fit_regressor_impl *)
  Definition reg_fit_logged (e : est) (X : list smp) (y : list Z) (epochs : nat) (w : log) : outcome (status * est * log) :=
    let* st := check_X_y A X y in
    if decide (st <> S_OK) then Ret (st, e, w) else
    let* T := P_threshold (e_params e) in
    let st := check_response_y y T in
    if decide (st <> S_OK) then Ret (st, e, w) else
    let* nf := front_size A X in
    let* nf := ci32 (Z.of_nat nf) in
    let p := <["number_of_features" := PInt nf]> (e_params e) in
    let* '(e, w) := reg_initialize_logged (with_params S A p e) w in
    reg_fit_online_logged e X y epochs w.

  (** tsetlini.cpp:1241-1269 fit_regressor_online_with_input_check *)
  Definition reg_fit_online_checked_logged (e : est) (X : list smp) (y : list Z) (epochs : nat) (w : log) : outcome (status * est * log) :=
    let* st := check_X_y A X y in
    if decide (st <> S_OK) then Ret (st, e, w) else
    let* nf := P_number_of_features (e_params e) in
    let* st := check_X A X nf in
    if decide (st <> S_OK) then Ret (st, e, w) else
    let* T := P_threshold (e_params e) in
    let st := check_response_y y T in
    if decide (st <> S_OK) then Ret (st, e, w) else
    reg_fit_online_logged e X y epochs w.

  (** tsetlini.cpp:1272-1287 partial_fit_impl (regressors) *)
  Definition reg_partial_fit_logged (e : est) (X : list smp) (y : list Z) (epochs : nat) (w : log) : outcome (status * est * log) :=
    if is_fitted A (e_ta e) then reg_fit_online_checked_logged e X y epochs w
    else reg_fit_logged e X y epochs w.

  (** calls; predict, decision_function and evaluate contain no LOG *)
  Definition clf_step_logged (e : est) (o : clf_op A) (w : log) : outcome (clf_res * est * log) :=
    match o with
    | CFit _ X y ml ep => let* '(s, e, w) := clf_fit_logged e X y ml ep w in Ret (CRStatus s, e, w)
    | CPartialFit _ X y ml ep => let* '(s, e, w) := clf_partial_fit_logged e X y ml ep w in Ret (CRStatus s, e, w)
    | _ => let* '(r, e) := clf_step S A e o in Ret (r, e, w)
    end.
  Definition clf_run_logged (e : est) (os : list (clf_op A)) (w : log) : outcome (list clf_res * est * log) :=
    ofold os ([], e, w) (fun o '(rs, e, w) => let* '(r, e, w) := clf_step_logged e o w in Ret (rs ++ [r], e, w)).
  Definition reg_step_logged (e : est) (o : reg_op A) (w : log) : outcome (reg_res * est * log) :=
    match o with
    | RFit _ X y ep => let* '(s, e, w) := reg_fit_logged e X y ep w in Ret (RRStatus s, e, w)
    | RPartialFit _ X y ep => let* '(s, e, w) := reg_partial_fit_logged e X y ep w in Ret (RRStatus s, e, w)
    | _ => let* '(r, e) := reg_step S A e o in Ret (r, e, w)
    end.
  Definition reg_run_logged (e : est) (os : list (reg_op A)) (w : log) : outcome (list reg_res * est * log) :=
    ofold os ([], e, w) (fun o '(rs, e, w) => let* '(r, e, w) := reg_step_logged e o w in Ret (rs ++ [r], e, w)).
End Logged.
