(** * Model of from_json_string (lib/src/tsetlini_state_json.cpp:299-325, 344-370, 389-415, 434-460) including what a load that throws
      leaves behind.  Proofs are elsewhere.

    [from_json] (StateJson.v) has only the final state of a load that returns; here the members of the state are assigned one by one. *)
From Verif Require Export StateJson.
From stdpp Require Import list.
Local Open Scope Z_scope.

(** one statement of a function with effects on [st]: when it throws, the function ends with the state as it is *)
Definition attempt {A St} (o : outcome A) (st : St) (k : A -> outcome (option exn * St)) : outcome (option exn * St) :=
  match o with Ret a => k a | Throw x => Ret (Some x, st) | UB u => UB u | OutOfFuel => OutOfFuel end.

Section Load.
  Context {P : Type} (C : pol_codec P) (S : sch).
  Notation cache := (cache (eS S)).
  Notation est := (est P (eS S) irng frng).

  (** estimator_state_cache.cpp:14-30 ClassifierStateCache::reset: the three vectors, then the coin tosser.
      A negative number of outputs, for which resize throws std::length_error, counts as 0. *)
  Definition clf_reset_steps (p : params) (c : cache) : outcome (option exn * cache) :=
    attempt (P_clf_outputs p) c (fun n =>
    let c := Cache (ca_fb c) (replicate (Z.to_nat n) 0) (ca_sum c) (ca_ct c) (ca_sched c) in
    attempt (P_number_of_labels p) c (fun L =>
    let c := Cache (replicate (Z.to_nat n) 0) (ca_out c) (replicate (Z.to_nat L) 0) (ca_ct c) (ca_sched c) in
    attempt (let* s := P_s p in let* nf := P_number_of_features p in ct_make (f32_div f32_one s) nf) c (fun ct =>
    Ret (None, Cache (ca_fb c) (ca_out c) (ca_sum c) ct (ca_sched c))))).
  (** estimator_state_cache.cpp:45-57 RegressorStateCache::reset *)
  Definition reg_reset_steps (p : params) (c : cache) : outcome (option exn * cache) :=
    attempt (P_reg_outputs p) c (fun n =>
    let c := Cache [] (replicate (Z.to_nat n) 0) [] (ca_ct c) (ca_sched c) in
    attempt (let* s := P_s p in let* nf := P_number_of_features p in ct_make (f32_div f32_one s) nf) c (fun ct =>
    Ret (None, Cache (ca_fb c) (ca_out c) (ca_sum c) ct (ca_sched c)))).

  (** js.at(key).get<T>() for the four members *)
  Definition read_igen (js : json) : outcome irng := let* j := j_at js "igen" in irng_from_json j.
  Definition read_fgen (js : json) : outcome frng := let* j := j_at js "fgen" in frng_from_json j.
  Definition read_ta (js : json) : outcome (tastate P) := let* j := j_at js "ta_state" in ta_from_json C j.
  Definition read_params_t (js : json) : outcome params := let* j := j_at js "params" in params_from_json j.

  (** 299-325.  [js] is what json::parse made of the text; the parse itself comes first and throws with the state untouched.
      The result: the exception, if any, and the state afterwards.  The members "estimator" and "algo" are not looked at. *)
  Definition load (steps : params -> cache -> outcome (option exn * cache)) (e : est) (js : json) : outcome (option exn * est) :=
    attempt (read_igen js) e (fun igen =>
    let e := Est (e_params e) (e_ta e) (e_cache e) (mt_assign igen) (e_fgen e) in
    attempt (read_fgen js) e (fun fgen =>
    let e := Est (e_params e) (e_ta e) (e_cache e) (e_igen e) (mt_assign fgen) in
    attempt (read_ta js) e (fun ta =>
    let e := Est (e_params e) ta (e_cache e) (e_igen e) (e_fgen e) in
    attempt (read_params_t js) e (fun p =>
    let e := Est (recast_params p) (e_ta e) (e_cache e) (e_igen e) (e_fgen e) in
    let* '(x, c) := steps (e_params e) (e_cache e) in
    Ret (x, Est (e_params e) (e_ta e) c (e_igen e) (e_fgen e)))))).
  Definition clf_load : est -> json -> outcome (option exn * est) := load clf_reset_steps.
  Definition reg_load : est -> json -> outcome (option exn * est) := load reg_reset_steps.
End Load.
