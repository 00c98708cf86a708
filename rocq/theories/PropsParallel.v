(** * Property theorems about the OpenMP parallel loops: C60, C61.
    Reading guide.  A parallel loop is executed by a team of threads that take iterations from a pool; an iteration is a sequence of
    single reads and writes of shared memory (Parallel.v).  [loop_gives body its m m'] : whatever the size of the team, the
    distribution of the iterations [its] and the interleaving of the accesses, the loop started in memory [m] has no data race, makes
    no undefined access, cannot get stuck, stops after boundedly many steps, and then memory is [m'].  [openmp_algo R A vw P] : A is
    the classic or the bitwise algorithm and P are its loops: [pa_body] for training, [pa_pruned] (empty clauses are false) for
    prediction; [pa_mem P x s out] : the memory holds the sample, the automata and the clause outputs [out].
    [fires], [fires_pruned] : Spec of clause outputs, EstPredict.v. *)
From Verif Require Import ToyFacts ToyTrain ParallelProps ParallelPacked.
From Verif Require Import ContainersFacts.
From stdpp Require Import list.
Local Open Scope Z_scope.

(** ** C60 *)
(** a parallel loop gives what the same iterations give one after the other, each executed at one go *)
Theorem C60_training_loop : forall (R : rnd) (A : algo R) (vw : aview A) (P : par_algo A), openmp_algo R A vw P ->
  forall tile x s its out out', NoDup its -> clause_loop (a_clause A tile x s) out its = Ret out' ->
  loop_gives (pa_body P tile x) its (pa_mem P x s out) (pa_mem P x s out').
Proof. intros * HP * Hn E. exact (par_body A vw P HP _ _ _ _ _ _ Hn E). Qed.
Print Assumptions C60_training_loop.
Theorem C60_prediction_loop : forall (R : rnd) (A : algo R) (vw : aview A) (P : par_algo A), openmp_algo R A vw P ->
  forall tile x s its out out', NoDup its -> clause_loop (a_clause_pruned A tile x s) out its = Ret out' ->
  loop_gives (pa_pruned P tile x) its (pa_mem P x s out) (pa_mem P x s out').
Proof. intros * HP * Hn E. exact (par_pruned A vw P HP _ _ _ _ _ _ Hn E). Qed.
Print Assumptions C60_prediction_loop.
(** every call the estimators make: what the model of the call returns for one order of the iterations is what every parallel
    execution of the loop returns *)
Theorem C60_calls : forall (R : rnd) (S : sch) (A : algo R) (vw : aview A) (P : par_algo A), sch_ok S -> openmp_algo R A vw P ->
  (forall x c b e s n_jobs tile c', calc_clause_output S A x c (Z.of_nat b) (Z.of_nat e) s n_jobs tile = Ret c' ->
     loop_gives (pa_body P (tile_of tile) x) (seq b (e - b)) (pa_mem P x s (ca_out c)) (pa_mem P x s (ca_out c'))) /\
  (forall x c n s n_jobs tile c', calc_clause_output_pruned S A x c (Z.of_nat n) s n_jobs tile = Ret c' ->
     loop_gives (pa_pruned P (tile_of tile) x) (seq 0 n) (pa_mem P x s (ca_out c)) (pa_mem P x s (ca_out c'))).
Proof.
  intros * HS HP. split; intros * E; [exact (call_body A vw P HP S HS _ _ _ _ _ _ _ _ E)|exact (call_pruned A vw P HP S HS _ _ _ _ _ _ _ E)].
Qed.
Print Assumptions C60_calls.
(** on a fitted classifier, for every acceptable sample: the loops give exactly the outputs of the clauses *)
Theorem C60_classifier : forall (R : rnd) g_ok f_ok (S : sch) (A : algo R) (vw : aview A) (P : par_algo A) a p os rs e,
  rnd_ok R g_ok f_ok -> sch_ok S -> openmp_algo R A vw P -> clf_created a p -> clf_history S A vw p os rs e ->
  forall L nf, clf_dims_of os rs = Some (L, nf) ->
  forall x tile out, v_ok vw nf x -> (0 < tile)%nat -> length out = length (ca_out (e_cache e)) ->
  loop_gives (pa_pruned P tile x) (seq 0 (length out)) (pa_mem P x (e_ta e) out)
    (pa_mem P x (e_ta e) (map (fun i => b2z (fires_pruned vw nf (e_ta e) x i)) (seq 0 (length out)))) /\
  forall b e1, (e1 <= length out)%nat -> exists out', outputs_over (fires vw nf (e_ta e) x) b e1 out out' /\
    loop_gives (pa_body P tile x) (seq b (e1 - b)) (pa_mem P x (e_ta e) out) (pa_mem P x (e_ta e) out').
Proof.
  intros * HR HS HP Hc Hh * Hd * Hx Hb Ho.
  exact (clf_loops g_ok f_ok HR S HS A vw P HP a p os rs e Hc Hh L nf Hd x Hx tile Hb out Ho).
Qed.
Print Assumptions C60_classifier.
Theorem C60_regressor : forall (R : rnd) g_ok f_ok (S : sch) (A : algo R) (vw : aview A) (P : par_algo A) a p os rs e,
  rnd_ok R g_ok f_ok -> sch_ok S -> openmp_algo R A vw P -> reg_created a p -> reg_history S A vw p os rs e ->
  forall nf, reg_dims_of os rs = Some nf ->
  forall x tile out, v_ok vw nf x -> (0 < tile)%nat -> length out = length (ca_out (e_cache e)) ->
  loop_gives (pa_pruned P tile x) (seq 0 (length out)) (pa_mem P x (e_ta e) out)
    (pa_mem P x (e_ta e) (map (fun i => b2z (fires_pruned vw nf (e_ta e) x i)) (seq 0 (length out)))) /\
  forall b e1, (e1 <= length out)%nat -> exists out', outputs_over (fires vw nf (e_ta e) x) b e1 out out' /\
    loop_gives (pa_body P tile x) (seq b (e1 - b)) (pa_mem P x (e_ta e) out) (pa_mem P x (e_ta e) out').
Proof.
  intros * HR HS HP Hc Hh * Hd * Hx Hb Ho.
  exact (reg_loops g_ok f_ok HR S HS A vw P HP a p os rs e Hc Hh nf Hd x Hx tile Hb out Ho).
Qed.
Print Assumptions C60_regressor.

(** both algorithms, trained classifiers with four clause outputs *)
Example C60_example_classic : exists e, clf_history toy_sch CL (cl_view toy) toy_clf_params (toy_clf_ops CL toy_X) (toy_clf_res [0; 1; 0; 0] [0; 1; 1; 0]) e /\
  v_ok (cl_view toy) 3 [0; 1; 1] /\ length (ca_out (e_cache e)) = 4%nat /\
  exists out', calc_clause_output_pruned toy_sch CL [0; 1; 1] (e_cache e) 4 (e_ta e) 2 16 = Ret out'.
Proof.
  destruct (cl_probe (toy_clf_ops CL toy_X) (toy_clf_res [0; 1; 0; 0] [0; 1; 1; 0])
    (fun e => (length (ca_out (e_cache e)), match calc_clause_output_pruned toy_sch CL [0; 1; 1] (e_cache e) 4 (e_ta e) 2 16 with Ret _ => true | _ => false end))
    (4%nat, true)) as (e & Hh & Q); [vm_compute; reflexivity|].
  exists e. split; [exact Hh|]. pose proof (f_equal fst Q) as Q1. pose proof (f_equal snd Q) as Q2. clear Q. cbn [fst snd] in *.
  split; [repeat constructor; done|]. split; [exact Q1|].
  match type of Q2 with match ?o with _ => _ end = _ => destruct o as [c| | |]; try done end. by exists c.
Qed.
(** two threads can be in the middle of their iterations at the same time *)
Definition c60_mem : cmem := CMem [1; 0] (NM 8 8 2 (replicate 512 (-1))) [0; 0; 0; 0].
Example C60_example_interleaved : exists r, reaches (M := classic_machine) (pclp_body 16 2) (start (M := classic_machine) (seq 0 4) 2 c60_mem) r /\
  r_pool r = [0; 3]%nat /\ next_access r 0 (CAutomaton 5 0) false /\ next_access r 1 (CAutomaton 2 0) false.
Proof.
  eexists. split; [|split; [|split]].
  - eapply reaches_trans; [apply reaches_one, (TakeIteration (M := classic_machine) _ [0; 1]%nat 2%nat [3]%nat _ _ 0%nat); reflexivity|].
    eapply reaches_trans; [apply reaches_one, (TakeIteration (M := classic_machine) _ [0]%nat 1%nat [3]%nat _ _ 1%nat); reflexivity|].
    apply reaches_one. eapply (ReadCell (M := classic_machine) _ _ _ _ 0%nat); reflexivity.
  - reflexivity.
  - vm_compute. done.
  - vm_compute. done.
Qed.

(** ** C61: the overload that packs clause outputs into a bit_vector *)
(** executed by one thread it computes the outputs of the clauses and leaves the other bits alone *)
Theorem C61_one_thread : forall tile x p (f : nat -> bool) its o,
  (forall j, j ∈ its -> bw_clause tile x p j = Ret (b2z (f j))) -> (forall j, j ∈ its -> (j < bv_len o)%nat) -> bv_wf 64 o ->
  exists o', one_by_one (packed_body tile (bv_content_blocks 64 x)) its (PMem x p o) = Ret (PMem x p o') /\ bv_len o' = bv_len o /\
    forall q, (q < bv_len o)%nat -> bv_get 64 o' q = if decide (q ∈ its) then Ret (f q) else bv_get 64 o q.
Proof. intros * Hf Hl Hw. exact (packed_alone tile x p f its o Hf Hl Hw). Qed.
Print Assumptions C61_one_thread.
(** with two threads, any two clauses whose outputs share a block run into a data race, ... *)
Theorem C61_data_race_refuted : forall tile x p (f : nat -> bool) its o k j1 j2,
  (forall j, j ∈ its -> bw_clause tile x p j = Ret (b2z (f j))) -> (forall j, j ∈ its -> (j < bv_len o)%nat) -> NoDup its -> bv_wf 64 o ->
  (2 <= k)%nat -> j1 ∈ its -> j2 ∈ its -> j1 <> j2 -> (j1 / 64 = j2 / 64)%nat ->
  exists r, reaches (packed_body tile (bv_content_blocks 64 x)) (start (M := packed_machine) its k (PMem x p o)) r /\ races r.
Proof. intros * Hf Hl Hn Hw Hk H1 H2 Hne Hb. exact (packed_race tile x p f its o Hf Hl Hn Hw k Hk j1 j2 H1 H2 Hne Hb). Qed.
Print Assumptions C61_data_race_refuted.
(** ... and an output can get lost: the loop finishes, but the output of j1 is what it was before *)
Theorem C61_lost_output_refuted : forall tile x p (f : nat -> bool) its o k j1 j2,
  (forall j, j ∈ its -> bw_clause tile x p j = Ret (b2z (f j))) -> (forall j, j ∈ its -> (j < bv_len o)%nat) -> NoDup its -> bv_wf 64 o ->
  (2 <= k)%nat -> j1 ∈ its -> j2 ∈ its -> j1 <> j2 -> (j1 / 64 = j2 / 64)%nat ->
  exists r, reaches (packed_body tile (bv_content_blocks 64 x)) (start (M := packed_machine) its k (PMem x p o)) r /\ finished r /\
    bv_get 64 (pm_out (r_mem r)) j1 = bv_get 64 o j1.
Proof. intros * Hf Hl Hn Hw Hk H1 H2 Hne Hb. exact (packed_lost tile x p f its o Hf Hl Hn Hw k Hk j1 j2 H1 H2 Hne Hb). Qed.
Print Assumptions C61_lost_output_refuted.

(** four clauses without literals, so that all are true, and all bits clear at the start: the output of clause 0 stays 0 *)
Definition c61_x : bit_vector := BV 3 [5%N].
Definition c61_p : bmatrix := BM 8 3 8 (replicate 64 0%N).
Definition c61_out : bit_vector := BV 4 [0%N].
Example C61_example :
  (forall j, j ∈ seq 0 4 -> bw_clause 16 c61_x c61_p j = Ret (b2z true)) /\ (forall j, j ∈ seq 0 4 -> (j < bv_len c61_out)%nat) /\
  NoDup (seq 0 4) /\ bv_wf 64 c61_out /\
  exists r, reaches (packed_body 16 (bv_content_blocks 64 c61_x)) (start (M := packed_machine) (seq 0 4) 2 (PMem c61_x c61_p c61_out)) r /\ finished r /\
    bv_get 64 (pm_out (r_mem r)) 0 = Ret false.
Proof.
  assert (forall j, j ∈ seq 0 4 -> bw_clause 16 c61_x c61_p j = Ret (b2z true)) as H1.
  { intros j Hj. apply elem_of_seq in Hj. destruct j as [|[|[|[|j]]]]; [reflexivity..|lia]. }
  assert (forall j, j ∈ seq 0 4 -> (j < bv_len c61_out)%nat) as H2 by (intros j Hj%elem_of_seq; cbn; lia).
  assert (bv_wf 64 c61_out) as H3. { split; [cbn; lia|]. repeat constructor. }
  split_and!; [done|done|apply NoDup_seq|done|].
  destruct (packed_lost 16 c61_x c61_p (fun _ => true) (seq 0 4) c61_out H1 H2 (NoDup_seq _ _) H3 2 (le_n 2) 0%nat 3%nat) as (r & Hr & Hf & Hg);
    [apply elem_of_seq; lia|apply elem_of_seq; lia|done|done|]. exists r. split; [done|]. split; [done|]. by rewrite Hg.
Qed.
