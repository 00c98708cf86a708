(** * Examples for C77 and C78. *)
From Verif Require Import ToyFloat Toy ToyFacts ToyTrain Relevance Learned FloatProps.
From stdpp Require Import list.
Local Open Scope Z_scope.

(** six epochs with threshold 1: the label of these samples is learned, no clause is empty *)
Definition known_X : list (list Z) := [[1; 0; 0]; [1; 1; 0]; [1; 1; 1]].
Definition known_y : list Z := [1; 1; 1].
Definition has_literal (e : est (a_pol CL) (eS toy_sch) Z Z) (j : nat) : bool :=
  existsb (fun k => v_inc (cl_view toy) (ta_matrix (e_ta e)) (ta_pol (e_ta e)) j k || v_incn (cl_view toy) (ta_matrix (e_ta e)) (ta_pol (e_ta e)) j k) (seq 0 3).
Lemma known_example : exists e, clf_history toy_sch CL (cl_view toy) sat_params [CFit CL toy_X toy_y 0 6] [CRStatus S_OK] e /\
  clf_dims_of [CFit CL toy_X toy_y 0 6] [CRStatus S_OK] = Some (2%nat, 3%nat) /\
  results (clf_partial_fit toy_sch CL e known_X known_y 0 5) = Some S_OK /\
  (forall j, (j < 8)%nat -> exists k, (k < 3)%nat /\ mentions CL (cl_view toy) (e_ta e) j k) /\
  (forall x t, (x, t) ∈ zip known_X known_y -> results (clf_decision1 toy_sch CL e x) = Some (Right [-1; 1])) /\
  (forall x t, (x, t) ∈ zip known_X known_y -> clf_learned CL (cl_view toy) sat_a 2 3 (e_ta e) x t).
Proof.
  destruct (probe_ret (clf_run toy_sch CL (construct toy_sch CL sat_params) [CFit CL toy_X toy_y 0 6])
    (fun e => (results (clf_partial_fit toy_sch CL e known_X known_y 0 5), forallb (has_literal e) (seq 0 8),
       map (fun x => results (clf_decision1 toy_sch CL e x)) known_X,
       map (fun x => map (train_votes (cl_view toy) sat_a 3 (e_ta e) x) (seq 0 2)) known_X)) [CRStatus S_OK]
       (Some S_OK, true, [Some (Right [-1; 1]); Some (Right [-1; 1]); Some (Right [-1; 1])], [[-1; 1]; [-1; 1]; [-1; 1]])) as (e & E & H); [vm_compute; reflexivity|].
  exists e. split; [split; [apply cl_ops_phys|exact E]|]. clear E. split; [reflexivity|].
  split; [exact (f_equal (fun q => q.1.1.1) H)|].
  split.
  { intros j Hj. pose proof (f_equal (fun q => q.1.1.2) H) as Q. cbn [fst snd] in Q. rewrite forallb_forall in Q.
    specialize (Q j ltac:(apply in_seq; lia)). unfold has_literal in Q. apply existsb_exists in Q as (k & Hk%in_seq & Q).
    exists k. split; [lia|]. by apply orb_true_iff in Q. }
  split.
  { pose proof (f_equal (fun q => q.1.2) H) as Q. cbn [fst snd map known_X] in Q. injection Q as Q1 Q2 Q3.
    intros x t Hin. cbn [zip zip_with known_X known_y] in Hin. rewrite !elem_of_cons in Hin.
    destruct Hin as [[= -> _]|[[= -> _]|[[= -> _]|Hin]]]; [exact Q1|exact Q2|exact Q3|by apply elem_of_nil in Hin]. }
  pose proof (f_equal (fun q => q.2) H) as Q. cbn [fst snd map known_X seq] in Q. injection Q as Q1 Q2 Q3 Q4 Q5 Q6.
  intros x t Hin. cbn [zip zip_with known_X known_y] in Hin. rewrite !elem_of_cons in Hin.
  assert (ca_threshold sat_a = 1) as ET by (vm_compute; reflexivity).
  assert (forall y, train_votes (cl_view toy) sat_a 3 (e_ta e) y 0 = -1 -> train_votes (cl_view toy) sat_a 3 (e_ta e) y 1 = 1 ->
    clf_learned CL (cl_view toy) sat_a 2 3 (e_ta e) y 1) as W.
  { intros y W1 W2 l Hl. rewrite ET. destruct l as [|[|l]]; [exact W1|exact W2|lia]. }
  destruct Hin as [[= -> ->]|[[= -> ->]|[[= -> ->]|Hin]]]; [by apply W..|by apply elem_of_nil in Hin].
Qed.
(** a regressor that answers 0, 2, 0, 5, trained on just these answers *)
Definition known_r : list Z := [0; 2; 0; 5].
Lemma known_reg_example : exists e, reg_history toy_sch CL (cl_view toy) toy_reg_params toy_rfit6 [RRStatus S_OK] e /\
  reg_dims_of toy_rfit6 [RRStatus S_OK] = Some 3%nat /\
  results (reg_partial_fit toy_sch CL e toy_X known_r 5) = Some S_OK /\
  (forall x t, (x, t) ∈ zip toy_X known_r -> results (reg_predict1 toy_sch CL e x) = Some (Right t)) /\
  (forall x t, (x, t) ∈ zip toy_X known_r -> train_response (cl_view toy) toy_ra 3 (e_ta e) x = t).
Proof.
  destruct (probe_ret (reg_run toy_sch CL (construct toy_sch CL toy_reg_params) toy_rfit6)
    (fun e => (results (reg_partial_fit toy_sch CL e toy_X known_r 5), map (fun x => results (reg_predict1 toy_sch CL e x)) toy_X,
       map (train_response (cl_view toy) toy_ra 3 (e_ta e)) toy_X)) [RRStatus S_OK]
       (Some S_OK, map (fun t => Some (Right t)) known_r, known_r)) as (e & E & H); [vm_compute; reflexivity|].
  exists e. split; [split; [apply rcl_ops_phys|exact E]|]. clear E. split; [reflexivity|].
  split; [exact (f_equal (fun q => q.1.1) H)|].
  split.
  - pose proof (f_equal (fun q => q.1.2) H) as Q. cbn [fst snd map toy_X known_r] in Q. injection Q as Q1 Q2 Q3 Q4.
    intros x t Hin. cbn [zip zip_with toy_X known_r] in Hin. rewrite !elem_of_cons in Hin.
    destruct Hin as [[= -> ->]|[[= -> ->]|[[= -> ->]|[[= -> ->]|Hin]]]]; [exact Q1|exact Q2|exact Q3|exact Q4|by apply elem_of_nil in Hin].
  - pose proof (f_equal (fun q => q.2) H) as Q. cbn [fst snd map toy_X known_r] in Q. injection Q as Q1 Q2 Q3 Q4.
    intros x t Hin. cbn [zip zip_with toy_X known_r] in Hin. rewrite !elem_of_cons in Hin.
    destruct Hin as [[= -> ->]|[[= -> ->]|[[= -> ->]|[[= -> ->]|Hin]]]]; [exact Q1|exact Q2|exact Q3|exact Q4|by apply elem_of_nil in Hin].
Qed.
