(** * The parameter checks as they are written: chains of rightFlatMap and rightMap on Either objects.

    Model of tsetlini_params.cpp:489-500 (classifier; the same checks in 434-444) and 577-589 (regressor; 515-526) on the objects of
    Results.v, with the checking functions of Params.v.  The functions are given an rvalue; [residue] is what a function leaves of it
    (the functions that take a const reference leave it as it is, normalize_n_jobs and normalize_random_state, 187-207, take a value).
    Proofs are elsewhere. *)
From Verif Require Export Results Params.
Local Open Scope Z_scope.

Definition sum_of {A} (e : either A) : status + A := match e with Left s => inl s | Right a => inr a end.

Section ParamChain.
  Context {W : Type} (hw rd : Z) (residue : params -> params).
  Definition flat (f : params -> outcome (either params)) : rstep W exn status params :=
    StepFlatMap (fun p q =>
      match f p with
      | Ret e => Ret (inl (sum_of e), residue p, q)
      | Throw x => Ret (inr x, residue p, q)
      | UB k => UB k
      | OutOfFuel => OutOfFuel
      end).
  Definition plain (f : params -> outcome params) : rstep W exn status params :=
    StepMap (fun p q =>
      match f p with
      | Ret p' => Ret (inl p', residue p, q)
      | Throw x => Ret (inr x, residue p, q)
      | UB k => UB k
      | OutOfFuel => OutOfFuel
      end).
  Definition classifier_checks : list (rstep W exn status params) :=
    [flat assert_n_jobs; flat assert_number_of_states; flat assert_specificity; flat assert_clauses_per_label;
     flat assert_boost; flat assert_threshold; flat assert_max_weight; plain (normalize_n_jobs hw); plain (normalize_random_state rd);
     flat assert_counting_type; flat assert_tile].
  Definition regressor_checks : list (rstep W exn status params) :=
    [flat assert_n_jobs; flat assert_number_of_states; flat assert_specificity; flat assert_regressor_clauses;
     flat assert_boost; flat assert_threshold; flat assert_max_weight; plain (normalize_n_jobs hw); plain (normalize_random_state rd);
     flat assert_counting_type; flat assert_loss; flat assert_tile].
End ParamChain.
