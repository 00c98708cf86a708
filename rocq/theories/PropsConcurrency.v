(** * Property theorems about concurrent calls of predict: C48.
    Reading guide (see also PropsPredict.v).  [start_predicts S A e calls] : one thread per element of [calls] has called predict on
    the same estimator [e], with a sample and an order in which its clause loop runs.  [fine_calls] : the samples are acceptable and
    the orders are orders of all clauses.  [run_predicts S A e schedule c] : the threads named in [schedule] make one step each, in
    this order; a step is one access to the scratch vectors of the estimator.  [returned c k] : the label thread [k] has returned,
    if it has.  [racing c] : two threads are about to access the same cell, at least one of them writing (Concurrency.v).  [read_racing c] : one
    of them reading, the other one writing. *)
From Verif Require Import ToyFacts ConcurrencyProps.
From stdpp Require Import list.
Local Open Scope Z_scope.

(** ** C48 *)
(** if nobody else moves during a call, whatever the other threads did before, the call finishes with the label a single-threaded
    predict returns *)
Theorem C48_undisturbed_call : forall (R : rnd) g_ok f_ok (S : sch) (A : algo R) (vw : aview A) a p os rs e,
  rnd_ok R g_ok f_ok -> sch_ok S -> tsetlini_algo R A vw -> clf_created a p -> clf_history S A vw p os rs e ->
  forall L nf, clf_dims_of os rs = Some (L, nf) ->
  forall calls schedule c k x o, fine_calls S A vw e nf calls -> calls !! k = Some (x, o) -> k ∉ schedule ->
  run_predicts S A e schedule (start_predicts S A e calls) = Ret c ->
  exists steps c' l e', run_predicts S A e (replicate steps k) c = Ret c' /\ returned c' k = Some l /\
    clf_predict1 S A e x = Ret (Right l, e') /\ (forall k', k' <> k -> c'.1 !! k' = c.1 !! k').
Proof. intros * HR HS HA Hc Hh * Hd * Hf Hk Hn E. exact (conc_alone g_ok f_ok HR S HS A vw HA a p os rs e Hc Hh L nf Hd _ _ _ _ _ _ Hf Hk Hn E). Qed.
Print Assumptions C48_undisturbed_call.
(** calls made one after the other, in any order, all get the right label *)
Theorem C48_one_after_another : forall (R : rnd) g_ok f_ok (S : sch) (A : algo R) (vw : aview A) a p os rs e,
  rnd_ok R g_ok f_ok -> sch_ok S -> tsetlini_algo R A vw -> clf_created a p -> clf_history S A vw p os rs e ->
  forall L nf, clf_dims_of os rs = Some (L, nf) ->
  forall calls ks, fine_calls S A vw e nf calls -> NoDup ks -> Forall (fun k => (k < length calls)%nat) ks ->
  exists blocks c, map snd blocks = ks /\
    run_predicts S A e (concat (map (fun '(steps, k) => replicate steps k) blocks)) (start_predicts S A e calls) = Ret c /\
    forall k x o, k ∈ ks -> calls !! k = Some (x, o) ->
      exists l e', returned c k = Some l /\ clf_predict1 S A e x = Ret (Right l, e').
Proof. intros * HR HS HA Hc Hh * Hd * Hf Hn Hl. exact (conc_sequential g_ok f_ok HR S HS A vw HA a p os rs e Hc Hh L nf Hd _ _ Hf Hn Hl). Qed.
Print Assumptions C48_one_after_another.
(** if all threads ask about the same sample, every answer is right, under every schedule *)
Theorem C48_same_sample : forall (R : rnd) g_ok f_ok (S : sch) (A : algo R) (vw : aview A) a p os rs e,
  rnd_ok R g_ok f_ok -> sch_ok S -> tsetlini_algo R A vw -> clf_created a p -> clf_history S A vw p os rs e ->
  forall L nf, clf_dims_of os rs = Some (L, nf) ->
  forall calls x schedule c, fine_calls S A vw e nf calls -> Forall (fun '(y, _) => y = x) calls ->
  run_predicts S A e schedule (start_predicts S A e calls) = Ret c ->
  forall k l, returned c k = Some l -> exists e', clf_predict1 S A e x = Ret (Right l, e').
Proof. intros * HR HS HA Hc Hh * Hd * Hf Hx E. exact (conc_same g_ok f_ok HR S HS A vw HA a p os rs e Hc Hh L nf Hd _ _ _ _ Hf Hx E). Qed.
Print Assumptions C48_same_sample.
(** under every schedule the accesses stay within the vectors and every answer is one of the labels *)
Theorem C48_some_label : forall (R : rnd) g_ok f_ok (S : sch) (A : algo R) (vw : aview A) a p os rs e,
  rnd_ok R g_ok f_ok -> sch_ok S -> tsetlini_algo R A vw -> clf_created a p -> clf_history S A vw p os rs e ->
  forall L nf, clf_dims_of os rs = Some (L, nf) ->
  forall calls schedule, fine_calls S A vw e nf calls ->
  exists c, run_predicts S A e schedule (start_predicts S A e calls) = Ret c /\ forall k l, returned c k = Some l -> 0 <= l < Z.of_nat L.
Proof. intros * HR HS HA Hc Hh * Hd * Hf. exact (conc_any g_ok f_ok HR S HS A vw HA a p os rs e Hc Hh L nf Hd _ _ Hf). Qed.
Print Assumptions C48_some_label.
(** but any two calls can run into a data race, ... *)
Theorem C48_data_race_refuted : forall (R : rnd) g_ok f_ok (S : sch) (A : algo R) (vw : aview A) a p os rs e,
  rnd_ok R g_ok f_ok -> sch_ok S -> tsetlini_algo R A vw -> clf_created a p -> clf_history S A vw p os rs e ->
  forall L nf, clf_dims_of os rs = Some (L, nf) ->
  forall x1 x2 o1 o2, fine_calls S A vw e nf [(x1, o1); (x2, o2)] ->
  exists schedule c, run_predicts S A e schedule (start_predicts S A e [(x1, o1); (x2, o2)]) = Ret c /\ racing c.
Proof.
  intros * HR HS HA Hc Hh * Hd * Hf. apply Forall_cons in Hf as [(? & ? & ?) Hf]. apply Forall_cons in Hf as [(? & ? & ?) _].
  by eapply (conc_race g_ok f_ok HR S HS A vw HA a p os rs e Hc Hh L nf Hd).
Qed.
Print Assumptions C48_data_race_refuted.
(** ... with one call reading an element the other one is about to write, too, ... *)
Theorem C48_read_race_refuted : forall (R : rnd) g_ok f_ok (S : sch) (A : algo R) (vw : aview A) a p os rs e,
  rnd_ok R g_ok f_ok -> sch_ok S -> tsetlini_algo R A vw -> clf_created a p -> clf_history S A vw p os rs e ->
  forall L nf, clf_dims_of os rs = Some (L, nf) ->
  forall x1 x2 o1 o2, fine_calls S A vw e nf [(x1, o1); (x2, o2)] ->
  exists schedule c, run_predicts S A e schedule (start_predicts S A e [(x1, o1); (x2, o2)]) = Ret c /\ read_racing c.
Proof.
  intros * HR HS HA Hc Hh * Hd * Hf. apply Forall_cons in Hf as [(? & ? & ?) Hf]. apply Forall_cons in Hf as [(? & ? & ?) _].
  by eapply (conc_read_race g_ok f_ok HR S HS A vw HA a p os rs e Hc Hh L nf Hd).
Qed.
Print Assumptions C48_read_race_refuted.
(** ... a call can return the other call's answer, ... *)
Theorem C48_other_answer_refuted : forall (R : rnd) g_ok f_ok (S : sch) (A : algo R) (vw : aview A) a p os rs e,
  rnd_ok R g_ok f_ok -> sch_ok S -> tsetlini_algo R A vw -> clf_created a p -> clf_history S A vw p os rs e ->
  forall L nf, clf_dims_of os rs = Some (L, nf) ->
  forall x1 x2 o1 o2, fine_calls S A vw e nf [(x1, o1); (x2, o2)] ->
  exists schedule c l e', run_predicts S A e schedule (start_predicts S A e [(x1, o1); (x2, o2)]) = Ret c /\ returned c 0 = Some l /\
    clf_predict1 S A e x2 = Ret (Right l, e').
Proof.
  intros * HR HS HA Hc Hh * Hd * Hf. apply Forall_cons in Hf as [(? & ? & ?) Hf]. apply Forall_cons in Hf as [(? & ? & ?) _].
  by eapply (conc_swapped g_ok f_ok HR S HS A vw HA a p os rs e Hc Hh L nf Hd).
Qed.
Print Assumptions C48_other_answer_refuted.
(** ... and if both evaluate the clauses in the same order, the label of any mixture of the clause outputs for the two samples *)
Theorem C48_mixture_refuted : forall (R : rnd) g_ok f_ok (S : sch) (A : algo R) (vw : aview A) a p os rs e,
  rnd_ok R g_ok f_ok -> sch_ok S -> tsetlini_algo R A vw -> clf_created a p -> clf_history S A vw p os rs e ->
  forall L nf, clf_dims_of os rs = Some (L, nf) ->
  forall x1 x2 o (sel : nat -> bool), fine_calls S A vw e nf [(x1, o); (x2, o)] ->
  let output j := if sel j then fires_pruned vw nf (e_ta e) x1 j else fires_pruned vw nf (e_ta e) x2 j in
  let votes := map (label_vote (clf_opl a) (ca_threshold a) output (ta_weights (e_ta e))) (seq 0 L) in
  exists schedule c, run_predicts S A e schedule (start_predicts S A e [(x1, o); (x2, o)]) = Ret c /\
    returned c 0 = Some (Z.of_nat (argmax votes)).
Proof.
  intros * HR HS HA Hc Hh * Hd * Hf. apply Forall_cons in Hf as [(? & ? & ?) Hf]. apply Forall_cons in Hf as [(? & ? & ?) _].
  by apply (conc_mixture g_ok f_ok HR S HS A vw HA a p os rs e Hc Hh L nf Hd).
Qed.
Print Assumptions C48_mixture_refuted.

(** a trained classifier, two samples: both predict calls return 1 alone; one of them returns 0 under this schedule, and 1 if the
    other one waits *)
Definition c48_calls : list (a_smp CL * list nat) := [([0; 0; 0], [0; 1; 2; 3]%nat); ([0; 1; 1], [0; 1; 2; 3]%nat)].
Example C48_example : exists e, clf_history toy_sch CL (cl_view toy) toy_clf_params (toy_clf_ops CL toy_X) (toy_clf_res [0; 1; 0; 0] [0; 1; 1; 0]) e /\
  fine_calls toy_sch CL (cl_view toy) e 3 c48_calls /\
  results (clf_predict1 toy_sch CL e [0; 0; 0]) = Some (Right 1) /\ results (clf_predict1 toy_sch CL e [0; 1; 1]) = Some (Right 1) /\
  (exists c, run_predicts toy_sch CL e ([0; 1; 0; 1; 1; 0; 0; 1] ++ replicate 20 0)%nat (start_predicts toy_sch CL e c48_calls) = Ret c /\ returned c 0 = Some 0) /\
  (exists c, run_predicts toy_sch CL e (replicate 20 0)%nat (start_predicts toy_sch CL e c48_calls) = Ret c /\ returned c 0 = Some 1).
Proof.
  destruct (cl_probe (toy_clf_ops CL toy_X) (toy_clf_res [0; 1; 0; 0] [0; 1; 1; 0])
    (fun e => (length (ca_out (e_cache e)), results (clf_predict1 toy_sch CL e [0; 0; 0]), results (clf_predict1 toy_sch CL e [0; 1; 1]),
       match run_predicts toy_sch CL e ([0; 1; 0; 1; 1; 0; 0; 1] ++ replicate 20 0)%nat (start_predicts toy_sch CL e c48_calls) with Ret c => returned c 0 | _ => None end,
       match run_predicts toy_sch CL e (replicate 20 0)%nat (start_predicts toy_sch CL e c48_calls) with Ret c => returned c 0 | _ => None end))
    (4%nat, Some (Right 1), Some (Right 1), Some 0, Some 1)) as (e & Hh & Q); [vm_compute; reflexivity|].
  exists e. split; [exact Hh|]. pose proof (f_equal (fun q => q.1.1.1.1) Q) as Q1. pose proof (f_equal (fun q => q.1.1.1.2) Q) as Q2.
  pose proof (f_equal (fun q => q.1.1.2) Q) as Q3. pose proof (f_equal (fun q => q.1.2) Q) as Q4. pose proof (f_equal (fun q => q.2) Q) as Q5.
  clear Q. cbn [fst snd] in *. split_and!; [|exact Q2|exact Q3| |].
  - unfold fine_calls, whole_order, c48_calls. rewrite Q1. repeat constructor; done.
  - match type of Q4 with match ?o with _ => _ end = _ => destruct o as [c| | |]; try done end. by exists c.
  - match type of Q5 with match ?o with _ => _ end = _ => destruct o as [c| | |]; try done end. by exists c.
Qed.
