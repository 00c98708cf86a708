(** * Property theorems about concurrent calls of predict on a regressor: C79.
    Reading guide (see also PropsPredict.v, and PropsConcurrency.v for classifiers).  [reg_start_predicts S A e calls] : one thread
    per element of [calls] has called predict on the same regressor [e], with a sample and an order in which its clause loop runs.
    [reg_fine_calls] : the samples are acceptable and the orders are orders of all clauses.  [reg_run_predicts S A e schedule c] : the
    threads named in [schedule] make one step each, in this order; a step is at most one access to the scratch vector of the
    estimator.  [reg_returned c k] : the response thread [k] has returned, if it has.  [reg_racing c] : two threads are about to
    access the same element, at least one of them writing (ConcurrencyReg.v).  [reg_read_racing c] : one
    of them reading, the other one writing. *)
From Verif Require Import ToyFacts ConcurrencyRegProps.
From stdpp Require Import list.
Local Open Scope Z_scope.

(** ** C79 *)
(** if nobody else moves during a call, whatever the other threads did before, the call finishes with the response a single-threaded
    predict returns *)
Theorem C79_undisturbed_call : forall (R : rnd) g_ok f_ok (S : sch) (A : algo R) (vw : aview A) a p os rs e,
  rnd_ok R g_ok f_ok -> sch_ok S -> tsetlini_algo R A vw -> reg_created a p -> reg_history S A vw p os rs e ->
  forall nf, reg_dims_of os rs = Some nf ->
  forall calls schedule c k x o, reg_fine_calls S A vw e nf calls -> calls !! k = Some (x, o) -> k ∉ schedule ->
  reg_run_predicts S A e schedule (reg_start_predicts S A e calls) = Ret c ->
  exists steps c' l e', reg_run_predicts S A e (replicate steps k) c = Ret c' /\ reg_returned c' k = Some l /\
    reg_predict1 S A e x = Ret (Right l, e') /\ (forall k', k' <> k -> c'.1 !! k' = c.1 !! k').
Proof. intros * HR HS HA Hc Hh * Hd * Hf Hk Hn E. exact (rconc_alone g_ok f_ok HR S HS A vw HA a p os rs e Hc Hh nf Hd _ _ _ _ _ _ Hf Hk Hn E). Qed.
Print Assumptions C79_undisturbed_call.
(** calls made one after the other, in any order, all get the right response *)
Theorem C79_one_after_another : forall (R : rnd) g_ok f_ok (S : sch) (A : algo R) (vw : aview A) a p os rs e,
  rnd_ok R g_ok f_ok -> sch_ok S -> tsetlini_algo R A vw -> reg_created a p -> reg_history S A vw p os rs e ->
  forall nf, reg_dims_of os rs = Some nf ->
  forall calls ks, reg_fine_calls S A vw e nf calls -> NoDup ks -> Forall (fun k => (k < length calls)%nat) ks ->
  exists blocks c, map snd blocks = ks /\
    reg_run_predicts S A e (concat (map (fun '(steps, k) => replicate steps k) blocks)) (reg_start_predicts S A e calls) = Ret c /\
    forall k x o, k ∈ ks -> calls !! k = Some (x, o) ->
      exists l e', reg_returned c k = Some l /\ reg_predict1 S A e x = Ret (Right l, e').
Proof. intros * HR HS HA Hc Hh * Hd * Hf Hn Hl. exact (rconc_sequential g_ok f_ok HR S HS A vw HA a p os rs e Hc Hh nf Hd _ _ Hf Hn Hl). Qed.
Print Assumptions C79_one_after_another.
(** if all threads ask about the same sample, every answer is right, under every schedule *)
Theorem C79_same_sample : forall (R : rnd) g_ok f_ok (S : sch) (A : algo R) (vw : aview A) a p os rs e,
  rnd_ok R g_ok f_ok -> sch_ok S -> tsetlini_algo R A vw -> reg_created a p -> reg_history S A vw p os rs e ->
  forall nf, reg_dims_of os rs = Some nf ->
  forall calls x schedule c, reg_fine_calls S A vw e nf calls -> Forall (fun '(y, _) => y = x) calls ->
  reg_run_predicts S A e schedule (reg_start_predicts S A e calls) = Ret c ->
  forall k l, reg_returned c k = Some l -> exists e', reg_predict1 S A e x = Ret (Right l, e').
Proof. intros * HR HS HA Hc Hh * Hd * Hf Hx E. exact (rconc_same g_ok f_ok HR S HS A vw HA a p os rs e Hc Hh nf Hd _ _ _ _ Hf Hx E). Qed.
Print Assumptions C79_same_sample.
(** under every schedule the accesses stay within the vectors and every answer is between 0 and the threshold *)
Theorem C79_some_response : forall (R : rnd) g_ok f_ok (S : sch) (A : algo R) (vw : aview A) a p os rs e,
  rnd_ok R g_ok f_ok -> sch_ok S -> tsetlini_algo R A vw -> reg_created a p -> reg_history S A vw p os rs e ->
  forall nf, reg_dims_of os rs = Some nf ->
  forall calls schedule, reg_fine_calls S A vw e nf calls ->
  exists c, reg_run_predicts S A e schedule (reg_start_predicts S A e calls) = Ret c /\ forall k l, reg_returned c k = Some l -> 0 <= l <= ra_threshold a.
Proof. intros * HR HS HA Hc Hh * Hd * Hf. exact (rconc_any g_ok f_ok HR S HS A vw HA a p os rs e Hc Hh nf Hd _ _ Hf). Qed.
Print Assumptions C79_some_response.
(** but any two calls can run into a data race, ... *)
Theorem C79_data_race_refuted : forall (R : rnd) g_ok f_ok (S : sch) (A : algo R) (vw : aview A) a p os rs e,
  rnd_ok R g_ok f_ok -> sch_ok S -> tsetlini_algo R A vw -> reg_created a p -> reg_history S A vw p os rs e ->
  forall nf, reg_dims_of os rs = Some nf ->
  forall x1 x2 o1 o2, reg_fine_calls S A vw e nf [(x1, o1); (x2, o2)] ->
  exists schedule c, reg_run_predicts S A e schedule (reg_start_predicts S A e [(x1, o1); (x2, o2)]) = Ret c /\ reg_racing c.
Proof.
  intros * HR HS HA Hc Hh * Hd * Hf. apply Forall_cons in Hf as [(? & ? & ?) Hf]. apply Forall_cons in Hf as [(? & ? & ?) _].
  by eapply (rconc_race g_ok f_ok HR S HS A vw HA a p os rs e Hc Hh nf Hd).
Qed.
Print Assumptions C79_data_race_refuted.
(** ... with one call reading an element the other one is about to write, too, ... *)
Theorem C79_read_race_refuted : forall (R : rnd) g_ok f_ok (S : sch) (A : algo R) (vw : aview A) a p os rs e,
  rnd_ok R g_ok f_ok -> sch_ok S -> tsetlini_algo R A vw -> reg_created a p -> reg_history S A vw p os rs e ->
  forall nf, reg_dims_of os rs = Some nf ->
  forall x1 x2 o1 o2, reg_fine_calls S A vw e nf [(x1, o1); (x2, o2)] ->
  exists schedule c, reg_run_predicts S A e schedule (reg_start_predicts S A e [(x1, o1); (x2, o2)]) = Ret c /\ reg_read_racing c.
Proof.
  intros * HR HS HA Hc Hh * Hd * Hf. apply Forall_cons in Hf as [(? & ? & ?) Hf]. apply Forall_cons in Hf as [(? & ? & ?) _].
  by eapply (rconc_read_race g_ok f_ok HR S HS A vw HA a p os rs e Hc Hh nf Hd).
Qed.
Print Assumptions C79_read_race_refuted.
(** ... a call can return the other call's answer, ... *)
Theorem C79_other_answer_refuted : forall (R : rnd) g_ok f_ok (S : sch) (A : algo R) (vw : aview A) a p os rs e,
  rnd_ok R g_ok f_ok -> sch_ok S -> tsetlini_algo R A vw -> reg_created a p -> reg_history S A vw p os rs e ->
  forall nf, reg_dims_of os rs = Some nf ->
  forall x1 x2 o1 o2, reg_fine_calls S A vw e nf [(x1, o1); (x2, o2)] ->
  exists schedule c l e', reg_run_predicts S A e schedule (reg_start_predicts S A e [(x1, o1); (x2, o2)]) = Ret c /\ reg_returned c 0 = Some l /\
    reg_predict1 S A e x2 = Ret (Right l, e').
Proof.
  intros * HR HS HA Hc Hh * Hd * Hf. apply Forall_cons in Hf as [(? & ? & ?) Hf]. apply Forall_cons in Hf as [(? & ? & ?) _].
  by eapply (rconc_swapped g_ok f_ok HR S HS A vw HA a p os rs e Hc Hh nf Hd).
Qed.
Print Assumptions C79_other_answer_refuted.
(** ... and if both evaluate the clauses in the same order, the response of any mixture of the clause outputs for the two samples *)
Theorem C79_mixture_refuted : forall (R : rnd) g_ok f_ok (S : sch) (A : algo R) (vw : aview A) a p os rs e,
  rnd_ok R g_ok f_ok -> sch_ok S -> tsetlini_algo R A vw -> reg_created a p -> reg_history S A vw p os rs e ->
  forall nf, reg_dims_of os rs = Some nf ->
  forall x1 x2 o (sel : nat -> bool), reg_fine_calls S A vw e nf [(x1, o); (x2, o)] ->
  let output j := if sel j then fires_pruned vw nf (e_ta e) x1 j else fires_pruned vw nf (e_ta e) x2 j in
  exists schedule c, reg_run_predicts S A e schedule (reg_start_predicts S A e [(x1, o); (x2, o)]) = Ret c /\
    reg_returned c 0 = Some (clamp 0 (ra_threshold a) (total_votes (reg_n a) output (weight_of (ta_weights (e_ta e))))).
Proof.
  intros * HR HS HA Hc Hh * Hd * Hf. apply Forall_cons in Hf as [(? & ? & ?) Hf]. apply Forall_cons in Hf as [(? & ? & ?) _].
  by apply (rconc_mixture g_ok f_ok HR S HS A vw HA a p os rs e Hc Hh nf Hd).
Qed.
Print Assumptions C79_mixture_refuted.

(** a trained regressor, two samples with responses 2 and 4: under one schedule the first call returns 5, under another one 0, and 2
    if the other call waits *)
Definition c79_calls : list (a_smp CL * list nat) := [([0; 1; 0], [0; 1]%nat); ([1; 1; 0], [0; 1]%nat)].
Example C79_example : exists e, reg_history toy_sch CL (cl_view toy) toy_reg_params (toy_reg_ops CL toy_X) (toy_reg_res [0; 2; 0; 3] [0; 2; 0; 4]) e /\
  reg_fine_calls toy_sch CL (cl_view toy) e 3 c79_calls /\
  results (reg_predict1 toy_sch CL e [0; 1; 0]) = Some (Right 2) /\ results (reg_predict1 toy_sch CL e [1; 1; 0]) = Some (Right 4) /\
  (exists c, reg_run_predicts toy_sch CL e ([1; 0; 0; 1] ++ replicate 20 0)%nat (reg_start_predicts toy_sch CL e c79_calls) = Ret c /\ reg_returned c 0 = Some 5) /\
  (exists c, reg_run_predicts toy_sch CL e ([0; 1; 1; 0] ++ replicate 20 0)%nat (reg_start_predicts toy_sch CL e c79_calls) = Ret c /\ reg_returned c 0 = Some 0) /\
  (exists c, reg_run_predicts toy_sch CL e (replicate 20 0)%nat (reg_start_predicts toy_sch CL e c79_calls) = Ret c /\ reg_returned c 0 = Some 2).
Proof.
  destruct (rcl_probe (toy_reg_ops CL toy_X) (toy_reg_res [0; 2; 0; 3] [0; 2; 0; 4])
    (fun e => (length (ca_out (e_cache e)), results (reg_predict1 toy_sch CL e [0; 1; 0]), results (reg_predict1 toy_sch CL e [1; 1; 0]),
       match reg_run_predicts toy_sch CL e ([1; 0; 0; 1] ++ replicate 20 0)%nat (reg_start_predicts toy_sch CL e c79_calls) with Ret c => reg_returned c 0 | _ => None end,
       match reg_run_predicts toy_sch CL e ([0; 1; 1; 0] ++ replicate 20 0)%nat (reg_start_predicts toy_sch CL e c79_calls) with Ret c => reg_returned c 0 | _ => None end,
       match reg_run_predicts toy_sch CL e (replicate 20 0)%nat (reg_start_predicts toy_sch CL e c79_calls) with Ret c => reg_returned c 0 | _ => None end))
    (2%nat, Some (Right 2), Some (Right 4), Some 5, Some 0, Some 2)) as (e & Hh & Q); [vm_compute; reflexivity|].
  exists e. split; [exact Hh|]. pose proof (f_equal (fun q => q.1.1.1.1.1) Q) as Q1. pose proof (f_equal (fun q => q.1.1.1.1.2) Q) as Q2.
  pose proof (f_equal (fun q => q.1.1.1.2) Q) as Q3. pose proof (f_equal (fun q => q.1.1.2) Q) as Q4. pose proof (f_equal (fun q => q.1.2) Q) as Q5.
  pose proof (f_equal (fun q => q.2) Q) as Q6.
  clear Q. cbn [fst snd] in *. split_and!; [|exact Q2|exact Q3| | |].
  - unfold reg_fine_calls, reg_whole_order, c79_calls. rewrite Q1. repeat constructor; done.
  - match type of Q4 with match ?o with _ => _ end = _ => destruct o as [c| | |]; try done end. by exists c.
  - match type of Q5 with match ?o with _ => _ end = _ => destruct o as [c| | |]; try done end. by exists c.
  - match type of Q6 with match ?o with _ => _ end = _ => destruct o as [c| | |]; try done end. by exists c.
Qed.
