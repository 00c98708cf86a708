(** * Model of the estimators: lib/src/tsetlini.cpp, lib/src/tsetlini_state.cpp, lib/src/ta_state.cpp,
      lib/src/estimator_state.hpp, lib/src/estimator_state_cache.cpp. Proofs are elsewhere. *)
From Verif Require Export Algo Params.
Local Open Scope Z_scope.

(** estimator_state_cache.hpp:47-53, 66-70: ClassifierStateCache::value_type and RegressorStateCache::value_type
    (the latter has only clause_output and ct; its [ca_fb] and [ca_sum] stay empty here).
    [ca_sched] is the state of the modelled OpenMP scheduler; it is not a C++ member. *)
Record cache (SS : Type) := Cache {
  ca_fb : list Z; ca_out : list Z; ca_sum : list Z; ca_ct : coin_tosser; ca_sched : SS }.
Arguments Cache {SS}. Arguments ca_fb {SS}. Arguments ca_out {SS}. Arguments ca_sum {SS}. Arguments ca_ct {SS}.
Arguments ca_sched {SS}.

(** estimator_state.hpp:51-66 EstimatorState *)
Record est (P SS G F : Type) := Est {
  e_params : params; e_ta : tastate P; e_cache : cache SS; e_igen : G; e_fgen : F }.
Arguments Est {P SS G F}. Arguments e_params {P SS G F}. Arguments e_ta {P SS G F}. Arguments e_cache {P SS G F}.
Arguments e_igen {P SS G F}. Arguments e_fgen {P SS G F}.

(** std::all_of with a possibly undefined predicate, left to right, stops at the first failure *)
Fixpoint oall {A} (f : A -> outcome bool) (l : list A) : outcome bool :=
  match l with
  | [] => Ret true
  | a :: l => let* b := f a in if b then oall f l else Ret false
  end.

(** *max_element / *min_element over a set built from [y] *)
Definition list_max (y : list Z) : outcome Z :=
  match y with [] => UB EmptyDeref | a :: l => Ret (foldl Z.max a l) end.
Definition list_min (y : list Z) : outcome Z :=
  match y with [] => UB EmptyDeref | a :: l => Ret (foldl Z.min a l) end.

(** std::distance(begin, std::max_element(begin, end)): index of the first maximum; 0 for an empty range *)
Fixpoint argmax_from (best : Z) (best_ix ix : nat) (l : list Z) : nat :=
  match l with
  | [] => best_ix
  | v :: l => if best <? v then argmax_from v ix (S ix) l else argmax_from best best_ix (S ix) l
  end.
Definition argmax (l : list Z) : nat :=
  match l with [] => 0%nat | v :: l => argmax_from v 0 1 l end.

(** std::vector::resize *)
Definition resize0 (n : nat) (l : list Z) : list Z := take n l ++ replicate (n - length l) 0.

(** tsetlini_state.cpp:93-120 normalize_counting_type followed by the width selection of
    make_ta_state_matrix, ta_state.cpp:16-38 *)
Definition normalize_counting_type (ct : string) (N : Z) : string :=
  if (N <=? 127) && ((ct =? "auto")%string || (ct =? "int8")%string) then "int8"%string
  else if (N <=? 32767) && ((ct =? "auto")%string || (ct =? "int8")%string || (ct =? "int16")%string) then "int16"%string
  else "int32"%string.
Definition counting_width (ct : string) : Z :=
  if (ct =? "int8")%string then 8 else if (ct =? "int16")%string then 16 else 32.

Section Estimator.
  Context {R : rnd} (S : sch) (A : algo R).
  Notation G := (eG R).
  Notation F := (eF R).
  Notation smp := (a_smp A).
  Notation ta := (tastate (a_pol A)).
  Notation cache := (cache (eS S)).
  Notation est := (est (a_pol A) (eS S) G F).

  Definition with_params p (e : est) : est := Est p (e_ta e) (e_cache e) (e_igen e) (e_fgen e).
  Definition with_cache c (e : est) : est := Est (e_params e) (e_ta e) c (e_igen e) (e_fgen e).
  Definition with_igen g (e : est) : est := Est (e_params e) (e_ta e) (e_cache e) g (e_fgen e).
  Definition with_out o (c : cache) : cache := Cache (ca_fb c) o (ca_sum c) (ca_ct c) (ca_sched c).
  Definition with_sum s (c : cache) : cache := Cache (ca_fb c) (ca_out c) s (ca_ct c) (ca_sched c).
  Definition with_sched s (c : cache) : cache := Cache (ca_fb c) (ca_out c) (ca_sum c) (ca_ct c) s.

  (** default constructed members; default random seed of IRNG()/FRNG() is 1 (mt.hpp:75) *)
  Definition cache0 : cache := Cache [] [] [] ct_default (s_init S).
  Definition ta0 : ta := TA (nm_empty 32) [] (a_pol0 A).
  (** estimator_state.hpp:68-72 EstimatorState(params) *)
  Definition construct (p : params) : est := Est p ta0 cache0 (g_init R 1) (f_init R 1).

  (** ** Input checks, tsetlini.cpp:87-274 *)

  Definition same_size (X : list smp) : bool :=
    match X with [] => true | x :: X => forallb (fun r => Nat.eqb (a_size A r) (a_size A x)) X end.

  (** 87-125 check_X_y *)
  Definition check_X_y (X : list smp) (y : list Z) : outcome status :=
    if Nat.eqb (length X) 0 then Ret S_VALUE_ERROR
    else if Nat.eqb (length y) 0 then Ret S_VALUE_ERROR
    else if negb (Nat.eqb (length y) (length X)) then Ret S_VALUE_ERROR
    else if negb (same_size X) then Ret S_VALUE_ERROR
    else if negb (forallb (a_01 A) X) then Ret S_VALUE_ERROR
    else
      let* ok := oall (a_pad A) X in
      Ret (if ok then S_OK else S_VALUE_ERROR).

  (** X.front().size() *)
  Definition front_size (X : list smp) : outcome nat :=
    match X with [] => UB EmptyDeref | x :: _ => Ret (a_size A x) end.

  (** 128-141 check_X *)
  Definition check_X (X : list smp) (nf : Z) : outcome status :=
    let* n := front_size X in
    Ret (if Z.of_nat n =? nf then S_OK else S_VALUE_ERROR).

  (** 144-153 check_response_y *)
  Definition check_response_y (y : list Z) (T : Z) : status :=
    if forallb (fun v => (0 <=? v) && (v <=? T)) y then S_OK else S_VALUE_ERROR.

  (** 156-164 check_labels(labels) *)
  Definition check_labels (y : list Z) : outcome status :=
    let* lo := list_min y in Ret (if lo <? 0 then S_VALUE_ERROR else S_OK).
  (** 167-183 check_labels(labels, max_label) *)
  Definition check_labels_max (y : list Z) (max_label : Z) : outcome status :=
    let* lo := list_min y in
    let* hi := list_max y in
    Ret (if lo <? 0 then S_VALUE_ERROR else if max_label <? hi then S_VALUE_ERROR else S_OK).

  (** 192-201 is_fitted *)
  Definition is_fitted (s : ta) : bool := negb (Nat.eqb (nm_rows (ta_matrix s)) 0).

  (** 204-243 check_for_predict (batch) *)
  Definition check_for_predict_batch (e : est) (X : list smp) : outcome status :=
    if negb (is_fitted (e_ta e)) then Ret S_NOT_FITTED_ERROR
    else if Nat.eqb (length X) 0 then Ret S_VALUE_ERROR
    else if negb (same_size X) then Ret S_VALUE_ERROR
    else
      let* n := front_size X in
      let* nf := P_number_of_features (e_params e) in
      if negb (Z.of_nat n =? nf) then Ret S_VALUE_ERROR
      else if negb (forallb (a_01 A) X) then Ret S_VALUE_ERROR
      else
        let* ok := oall (a_pad A) X in
        Ret (if ok then S_OK else S_VALUE_ERROR).

  (** 246-274 check_for_predict (one sample) *)
  Definition check_for_predict (e : est) (x : smp) : outcome status :=
    if negb (is_fitted (e_ta e)) then Ret S_NOT_FITTED_ERROR
    else
      let* nf := P_number_of_features (e_params e) in
      if negb (Z.of_nat (a_size A x) =? nf) then Ret S_VALUE_ERROR
      else if negb (a_01 A x) then Ret S_VALUE_ERROR
      else
        let* ok := a_pad A x in
        Ret (if ok then S_OK else S_VALUE_ERROR).

  (** ** Clause outputs, tsetlini_algo_common.hpp:43-155: tile dispatch + parallel loop *)
  Definition calc_clause_output (x : smp) (c : cache) (b e : Z) (s : ta) (n_jobs tile : Z) : outcome cache :=
    if (b <? 0) && (b <? e) then UB OutOfBounds else
    let '(order, ss) := sched S (ca_sched c) n_jobs (Z.to_nat b) (Z.to_nat e) in
    let* out := clause_loop (a_clause A (tile_of tile) x s) (ca_out c) order in
    Ret (with_sched ss (with_out out c)).
  Definition calc_clause_output_pruned (x : smp) (c : cache) (n : Z) (s : ta) (n_jobs tile : Z) : outcome cache :=
    let '(order, ss) := sched S (ca_sched c) n_jobs 0 (Z.to_nat n) in
    let* out := clause_loop (a_clause_pruned A (tile_of tile) x s) (ca_out c) order in
    Ret (with_sched ss (with_out out c)).

  (** ** Prediction *)

  (** body of the loops of predict/decision_function/evaluate: clause outputs with pruning, then votes of all labels;
      tsetlini.cpp:412-427, 458-472, 534-549, 583-598, 627-642 *)
  Definition label_votes (e : est) (x : smp) (c : cache) (L opl T n n_jobs tile : Z) : outcome cache :=
    let* c := calc_clause_output_pruned x c n (e_ta e) n_jobs tile in
    let* ls := sum_up_all_label_votes (ca_out c) (ta_weights (e_ta e)) (ca_sum c) L opl T in
    Ret (with_sum ls c).

  (** 446-480 predict_classifier_impl(sample) *)
  Definition clf_predict1 (e : est) (x : smp) : outcome (either Z * est) :=
    let* st := check_for_predict e x in
    if decide (st <> S_OK) then Ret (Left st, e) else
    let p := e_params e in
    let* n_jobs := P_n_jobs p in
    let* tile := P_tile p in
    let* n := P_clf_outputs p in
    let* L := P_number_of_labels p in
    let* opl := P_outputs_per_label p in
    let* T := P_threshold p in
    let* c := label_votes e x (e_cache e) L opl T n n_jobs tile in
    Ret (Right (Z.of_nat (argmax (ca_sum c))), with_cache c e).

  (** 510-562 predict_classifier_impl(X) *)
  Definition clf_predict (e : est) (X : list smp) : outcome (either (list Z) * est) :=
    let* st := check_for_predict_batch e X in
    if decide (st <> S_OK) then Ret (Left st, e) else
    let p := e_params e in
    let* L := P_number_of_labels p in
    let* opl := P_outputs_per_label p in
    let* T := P_threshold p in
    let* n := P_clf_outputs p in
    let* n_jobs := P_n_jobs p in
    let* tile := P_tile p in
    let* '(rv, c) :=
      ofor 0 (length X) (replicate (length X) 0, e_cache e) (fun it '(rv, c) =>
        let* x := vget X it in
        let* c := label_votes e x c L opl T n n_jobs tile in
        let* rv := vset rv it (Z.of_nat (argmax (ca_sum c))) in
        Ret (rv, c)) in
    Ret (Right rv, with_cache c e).

  (** 565-606 predict_classifier_raw_impl(sample) *)
  Definition clf_decision1 (e : est) (x : smp) : outcome (either (list Z) * est) :=
    let* st := check_for_predict e x in
    if decide (st <> S_OK) then Ret (Left st, e) else
    let p := e_params e in
    let* L := P_number_of_labels p in
    let* opl := P_outputs_per_label p in
    let* T := P_threshold p in
    let* n := P_clf_outputs p in
    let* n_jobs := P_n_jobs p in
    let* tile := P_tile p in
    let* c := label_votes e x (e_cache e) L opl T n n_jobs tile in
    Ret (Right (ca_sum c), with_cache c e).

  (** 609-654 predict_classifier_raw_impl(X) *)
  Definition clf_decision (e : est) (X : list smp) : outcome (either (list (list Z)) * est) :=
    let* st := check_for_predict_batch e X in
    if decide (st <> S_OK) then Ret (Left st, e) else
    let p := e_params e in
    let* L := P_number_of_labels p in
    let* opl := P_outputs_per_label p in
    let* T := P_threshold p in
    let* n := P_clf_outputs p in
    let* n_jobs := P_n_jobs p in
    let* tile := P_tile p in
    let* '(rv, c) :=
      ofor 0 (length X) (replicate (length X) [], e_cache e) (fun it '(rv, c) =>
        let* x := vget X it in
        let* c := label_votes e x c L opl T n n_jobs tile in
        let* rv := vset rv it (ca_sum c) in
        Ret (rv, c)) in
    Ret (Right rv, with_cache c e).

  (** 392-443 evaluate_classifier_impl *)
  Definition clf_evaluate (e : est) (X : list smp) (y : list Z) : outcome (either float32 * est) :=
    let p := e_params e in
    let* L := P_number_of_labels p in
    let* opl := P_outputs_per_label p in
    let* T := P_threshold p in
    let* n := P_clf_outputs p in
    let* n_jobs := P_n_jobs p in
    let* tile := P_tile p in
    let* '(errors, c) :=
      ofor 0 (length X) (0, e_cache e) (fun it '(errors, c) =>
        let* x := vget X it in
        let* c := label_votes e x c L opl T n n_jobs tile in
        let* yi := vget y it in
        let* errors := ci32 (errors + b2z (negb (Z.of_nat (argmax (ca_sum c)) =? yi))) in
        Ret (errors, c)) in
    let rv := f32_sub f32_one (f32_div (f32_mul f32_one (f32_of_Z errors)) (f32_of_Z (Z.of_nat (length X)))) in
    Ret (Right rv, with_cache c e).

  (** 483-507 predict_regressor_impl(sample) *)
  Definition reg_predict1 (e : est) (x : smp) : outcome (either Z * est) :=
    let* st := check_for_predict e x in
    if decide (st <> S_OK) then Ret (Left st, e) else
    let p := e_params e in
    let* n_jobs := P_n_jobs p in
    let* tile := P_tile p in
    let* n := P_reg_outputs p in
    let* T := P_threshold p in
    let* c := calc_clause_output_pruned x (e_cache e) n (e_ta e) n_jobs tile in
    let* v := sum_up_regressor_votes (ca_out c) T (ta_weights (e_ta e)) in
    Ret (Right v, with_cache c e).

  (** 931-970 predict_regressor_impl(X) *)
  Definition reg_predict (e : est) (X : list smp) : outcome (either (list Z) * est) :=
    let* st := check_for_predict_batch e X in
    if decide (st <> S_OK) then Ret (Left st, e) else
    let p := e_params e in
    let* T := P_threshold p in
    let* n := P_reg_outputs p in
    let* n_jobs := P_n_jobs p in
    let* tile := P_tile p in
    let* '(rv, c) :=
      ofor 0 (length X) (replicate (length X) 0, e_cache e) (fun it '(rv, c) =>
        let* x := vget X it in
        let* c := calc_clause_output_pruned x c n (e_ta e) n_jobs tile in
        let* v := sum_up_regressor_votes (ca_out c) T (ta_weights (e_ta e)) in
        let* rv := vset rv it v in
        Ret (rv, c)) in
    Ret (Right rv, with_cache c e).

  (** ** Initialisation *)

  (** estimator_state_cache.cpp:14-30 ClassifierStateCache::reset *)
  Definition clf_cache_reset (p : params) (c : cache) : outcome cache :=
    let* n := P_clf_outputs p in
    let* L := P_number_of_labels p in
    let* s := P_s p in
    let* nf := P_number_of_features p in
    let* ct := ct_make (f32_div f32_one s) nf in
    Ret (Cache (replicate (Z.to_nat n) 0) (replicate (Z.to_nat n) 0) (replicate (Z.to_nat L) 0) ct (ca_sched c)).
  (** estimator_state_cache.cpp:45-57 RegressorStateCache::reset *)
  Definition reg_cache_reset (p : params) (c : cache) : outcome cache :=
    let* n := P_reg_outputs p in
    let* s := P_s p in
    let* nf := P_number_of_features p in
    let* ct := ct_make (f32_div f32_one s) nf in
    Ret (Cache [] (replicate (Z.to_nat n) 0) [] ct (ca_sched c)).

  (** tsetlini_state.cpp:216-246 initialize_state. What is logged: Logging.v. *)
  Definition initialize_state (clauses outputs : params -> outcome Z) (reset : params -> cache -> outcome cache)
             (e : est) : outcome est :=
    let p := e_params e in
    let* _ := P_verbose p in
    let* seed := P_random_state p in
    (* igen.init(int): conversion of the unsigned seed to int is modular *)
    let igen := g_init R (wrap_s 32 seed) in
    let fgen := f_init R (wrap_s 32 seed) in
    let* N := P_number_of_states p in
    let* ncl := clauses p in
    let* nout := outputs p in
    let* nf := P_number_of_features p in
    let* ct := P_counting_type p in
    let* weighted := P_weighted p in
    let* '(m, pol, igen) :=
      a_init A (counting_width (normalize_counting_type ct N)) (Z.to_nat ncl) (Z.to_nat nf) igen in
    let ws := if weighted then resize0 (Z.to_nat nout) (ta_weights (e_ta e)) else ta_weights (e_ta e) in
    let* c := reset p (e_cache e) in
    Ret (Est p (TA m ws pol) c igen fgen).
  Definition clf_initialize := initialize_state P_clf_clauses P_clf_outputs clf_cache_reset.
  Definition reg_initialize := initialize_state P_reg_clauses P_reg_outputs reg_cache_reset.

  (** ** Classifier training *)

  (** 277-389 classifier_update_impl *)
  Definition classifier_update (x : smp) (target opposite opl T N : Z) (boost : bool) (max_weight n_jobs tile : Z)
             (st : G * F * ta * cache) : outcome (G * F * ta * cache) :=
    let '(g, f, s, c) := st in
    let* '(b, e) := clause_range target opl in
    let* c := calc_clause_output x c b e s n_jobs tile in
    let* '(b, e) := clause_range opposite opl in
    let* c := calc_clause_output x c b e s n_jobs tile in
    let* ls := sum_up_label_votes (ca_out c) (ta_weights s) (ca_sum c) target opl T in
    let* ls := sum_up_label_votes (ca_out c) (ta_weights s) ls opposite opl T in
    let* tv := vgetZ ls target in
    let* ov := vgetZ ls opposite in
    let* '(fb, f) := calc_feedback R (ca_fb c) target opposite tv ov opl T f in
    let* '(b, e) := clause_range target opl in
    let* ixs := int_range b e in
    let* '(s, ct, g) := train_classifier A ixs fb (ca_out c) N x max_weight boost s (ca_ct c) g in
    let* '(b, e) := clause_range opposite opl in
    let* ixs := int_range b e in
    let* '(s, ct, g) := train_classifier A ixs fb (ca_out c) N x max_weight boost s ct g in
    Ret (g, f, s, Cache fb (ca_out c) ls ct (ca_sched c)).

  (** 657-668 generate_opposite_y, one label: (y + 1 + g() % (L - 1)) % L in unsigned arithmetic *)
  Definition opposite_label (y L : Z) (g : G) : outcome (Z * G) :=
    let* y1 := ci32 (y + 1) in
    let '(r, g) := g_next R g in
    let* d := ci32 (L - 1) in
    if u32 d =? 0 then UB DivByZero
    else if u32 L =? 0 then UB DivByZero
    else Ret (wrap_s 32 (u32 (y1 + r mod (u32 d)) mod (u32 L)), g).
  Definition generate_opposite_y (y : list Z) (L : Z) (g : G) : outcome (list Z * G) :=
    ofold y ([], g) (fun yi '(os, g) => let* '(o, g) := opposite_label yi L g in Ret (os ++ [o], g)).

  (** 705-732: one epoch *)
  Definition clf_epoch (p : params) (X : list smp) (y : list Z) (L opl T max_weight N : Z) (boost : bool)
             (tile n_jobs : Z) (st : G * F * ta * cache) : outcome (G * F * ta * cache) :=
    let '(g, f, s, c) := st in
    let* '(oy, g) := generate_opposite_y y L g in
    let '(ix, g) := shuf R g (length X) in
    ofold ix (g, f, s, c) (fun i st =>
      let* x := vget X i in
      let* yi := vget y i in
      let* oi := vget oy i in
      classifier_update x yi oi opl T N boost max_weight n_jobs tile st).

  (** 671-735 fit_classifier_online_impl *)
  Definition clf_fit_online (e : est) (X : list smp) (y : list Z) (epochs : nat) : outcome (status * est) :=
    let p := e_params e in
    let* L := P_number_of_labels p in
    let* opl := P_outputs_per_label p in
    let* T := P_threshold p in
    let* max_weight := P_max_weight p in
    let* N := P_number_of_states p in
    let* _ := P_s p in
    let* boost := P_boost p in
    let* tile := P_tile p in
    let* n_jobs := P_n_jobs p in
    let* _ := P_verbose p in
    let* '(g, f, s, c) :=
      ofor 0 epochs (e_igen e, e_fgen e, e_ta e, e_cache e)
        (fun _ st => clf_epoch p X y L opl T max_weight N boost tile n_jobs st) in
    Ret (S_OK, Est p s c g f).

  (** 738-776 fit_classifier_impl. The narrowing of X.front().size() to int (implementation defined above INT_MAX)
      is treated as an error outcome: nothing is claimed for more than INT_MAX features. *)
  Definition clf_fit (e : est) (X : list smp) (y : list Z) (max_labels : Z) (epochs : nat) : outcome (status * est) :=
    let* st := check_X_y X y in
    if decide (st <> S_OK) then Ret (st, e) else
    let* hi := list_max y in
    let* hi1 := ci32 (hi + 1) in
    let L := Z.max hi1 max_labels in
    let* st := check_labels y in
    if decide (st <> S_OK) then Ret (st, e) else
    let* nf := front_size X in
    let* nf := ci32 (Z.of_nat nf) in
    let p := <["number_of_features" := PInt nf]> (<["number_of_labels" := PInt L]> (e_params e)) in
    let* e := clf_initialize (with_params p e) in
    clf_fit_online e X y epochs.

  (** 1002-1033 fit_classifier_online_with_input_check *)
  Definition clf_fit_online_checked (e : est) (X : list smp) (y : list Z) (max_labels : Z) (epochs : nat)
    : outcome (status * est) :=
    let* st := check_X_y X y in
    if decide (st <> S_OK) then Ret (st, e) else
    let* nf := P_number_of_features (e_params e) in
    let* st := check_X X nf in
    if decide (st <> S_OK) then Ret (st, e) else
    let* L := P_number_of_labels (e_params e) in
    let* ml := ci32 (L - 1) in
    let* st := check_labels_max y ml in
    if decide (st <> S_OK) then Ret (st, e) else
    clf_fit_online e X y epochs.

  (** 1036-1052, 1342-1358 partial_fit_impl (classifiers) *)
  Definition clf_partial_fit (e : est) (X : list smp) (y : list Z) (max_labels : Z) (epochs : nat)
    : outcome (status * est) :=
    if is_fitted (e_ta e) then clf_fit_online_checked e X y max_labels epochs
    else clf_fit e X y max_labels epochs.

  (** ** Regressor training *)

  (** 779-830 regressor_update_impl *)
  Definition regressor_update (x : smp) (target T n N : Z) (boost : bool) (max_weight : Z)
             (loss : float32 -> float32) (box_muller : bool) (n_jobs tile : Z)
             (st : G * ta * cache) : outcome (G * ta * cache) :=
    let '(g, s, c) := st in
    let* c := calc_clause_output x c 0 n s n_jobs tile in
    let* votes := sum_up_regressor_votes (ca_out c) T (ta_weights s) in
    let* err := ci32 (votes - target) in
    let* '(s, ct, g) := train_regressor A n (ca_out c) N err x max_weight loss box_muller boost T s (ca_ct c) g in
    Ret (g, s, Cache (ca_fb c) (ca_out c) (ca_sum c) ct (ca_sched c)).

  (** 863-893 one epoch *)
  Definition reg_epoch (X : list smp) (y : list Z) (T n N : Z) (boost : bool) (max_weight : Z)
             (loss : float32 -> float32) (box_muller : bool) (n_jobs tile : Z)
             (st : G * ta * cache) : outcome (G * ta * cache) :=
    let '(g, s, c) := st in
    let '(ix, g) := shuf R g (length X) in
    ofold ix (g, s, c) (fun i st =>
      let* x := vget X i in
      let* yi := vget y i in
      regressor_update x yi T n N boost max_weight loss box_muller n_jobs tile st).

  (** 833-896 fit_regressor_online_impl *)
  Definition reg_fit_online (e : est) (X : list smp) (y : list Z) (epochs : nat) : outcome (status * est) :=
    let p := e_params e in
    let* n := P_reg_outputs p in
    let* T := P_threshold p in
    let* max_weight := P_max_weight p in
    let* N := P_number_of_states p in
    let* _ := P_s p in
    let* boost := P_boost p in
    let* tile := P_tile p in
    let* n_jobs := P_n_jobs p in
    let* _ := P_verbose p in
    let* name := P_loss_fn p in
    let* C1 := P_loss_C1 p in
    let* loss := make_loss_fn name C1 in
    let* bm := P_box_muller p in
    let* '(g, s, c) :=
      ofor 0 epochs (e_igen e, e_ta e, e_cache e)
        (fun _ st => reg_epoch X y T n N boost max_weight loss bm n_jobs tile st) in
    Ret (S_OK, Est p s c g (e_fgen e)).

  (** 899-928 fit_regressor_impl *)
  Definition reg_fit (e : est) (X : list smp) (y : list Z) (epochs : nat) : outcome (status * est) :=
    let* st := check_X_y X y in
    if decide (st <> S_OK) then Ret (st, e) else
    let* T := P_threshold (e_params e) in
    let st := check_response_y y T in
    if decide (st <> S_OK) then Ret (st, e) else
    let* nf := front_size X in
    let* nf := ci32 (Z.of_nat nf) in
    let p := <["number_of_features" := PInt nf]> (e_params e) in
    let* e := reg_initialize (with_params p e) in
    reg_fit_online e X y epochs.

  (** 1241-1269 fit_regressor_online_with_input_check *)
  Definition reg_fit_online_checked (e : est) (X : list smp) (y : list Z) (epochs : nat) : outcome (status * est) :=
    let* st := check_X_y X y in
    if decide (st <> S_OK) then Ret (st, e) else
    let* nf := P_number_of_features (e_params e) in
    let* st := check_X X nf in
    if decide (st <> S_OK) then Ret (st, e) else
    let* T := P_threshold (e_params e) in
    let st := check_response_y y T in
    if decide (st <> S_OK) then Ret (st, e) else
    reg_fit_online e X y epochs.

  (** 1272-1287 partial_fit_impl (regressors) *)
  Definition reg_partial_fit (e : est) (X : list smp) (y : list Z) (epochs : nat) : outcome (status * est) :=
    if is_fitted (e_ta e) then reg_fit_online_checked e X y epochs
    else reg_fit e X y epochs.

  (** ** Histories: sequences of public calls on one estimator *)
  Inductive clf_op :=
  | CFit (X : list smp) (y : list Z) (max_labels : Z) (epochs : nat)
  | CPartialFit (X : list smp) (y : list Z) (max_labels : Z) (epochs : nat)
  | CPredict1 (x : smp) | CPredict (X : list smp)
  | CDecision1 (x : smp) | CDecision (X : list smp)
  | CEvaluate (X : list smp) (y : list Z).
  (** observable result of a call *)
  Inductive clf_res :=
  | CRStatus (s : status) | CRLabel (r : either Z) | CRLabels (r : either (list Z))
  | CRVotes (r : either (list Z)) | CRVotess (r : either (list (list Z))) | CRScore (r : either float32).
  Definition clf_step (e : est) (o : clf_op) : outcome (clf_res * est) :=
    match o with
    | CFit X y ml ep => let* '(s, e) := clf_fit e X y ml ep in Ret (CRStatus s, e)
    | CPartialFit X y ml ep => let* '(s, e) := clf_partial_fit e X y ml ep in Ret (CRStatus s, e)
    | CPredict1 x => let* '(r, e) := clf_predict1 e x in Ret (CRLabel r, e)
    | CPredict X => let* '(r, e) := clf_predict e X in Ret (CRLabels r, e)
    | CDecision1 x => let* '(r, e) := clf_decision1 e x in Ret (CRVotes r, e)
    | CDecision X => let* '(r, e) := clf_decision e X in Ret (CRVotess r, e)
    | CEvaluate X y => let* '(r, e) := clf_evaluate e X y in Ret (CRScore r, e)
    end.
  Definition clf_run (e : est) (os : list clf_op) : outcome (list clf_res * est) :=
    ofold os ([], e) (fun o '(rs, e) => let* '(r, e) := clf_step e o in Ret (rs ++ [r], e)).

  Inductive reg_op :=
  | RFit (X : list smp) (y : list Z) (epochs : nat)
  | RPartialFit (X : list smp) (y : list Z) (epochs : nat)
  | RPredict1 (x : smp) | RPredict (X : list smp).
  Inductive reg_res := RRStatus (s : status) | RRResp (r : either Z) | RRResps (r : either (list Z)).
  Definition reg_step (e : est) (o : reg_op) : outcome (reg_res * est) :=
    match o with
    | RFit X y ep => let* '(s, e) := reg_fit e X y ep in Ret (RRStatus s, e)
    | RPartialFit X y ep => let* '(s, e) := reg_partial_fit e X y ep in Ret (RRStatus s, e)
    | RPredict1 x => let* '(r, e) := reg_predict1 e x in Ret (RRResp r, e)
    | RPredict X => let* '(r, e) := reg_predict e X in Ret (RRResps r, e)
    end.
  Definition reg_run (e : est) (os : list reg_op) : outcome (list reg_res * est) :=
    ofold os ([], e) (fun o '(rs, e) => let* '(r, e) := reg_step e o in Ret (rs ++ [r], e)).
End Estimator.
