(** * Concrete estimators in which an invariant fails or a refit differs from a first fit. *)
From Verif Require Import ToyTrain MtInst TotalFacts TotalProps ToyFloat.
From stdpp Require Import list.
Local Open Scope Z_scope.

(** ** One state: the bitwise estimator, driven by the library's own generators seeded with 42 *)
Definition mt42 : rnd := mt_rnd fy_shuffle true 1000 (fun _ => f32_one) (fun _ => f32_half).
Lemma mt42_ok : rnd_ok mt42 irng_ok frng_ok.
Proof. exact (mt_rnd_ok _ _ _ _ _ fy_shuffle_ok). Qed.
Notation BM := (Algo.bitwise mt42).
Definition n1_args : clf_args := ClfArgs 4 1 (f32_of_Z 3) 5 true 7 true 1 false "auto" 16 (Some 42).
Definition n1_a : clf_args := clf_norm 4 99 n1_args.
Definition n1_params : params := params_of (make_classifier_params_from_args 4 99 n1_args).
Definition n1_X : list bit_vector := map toy_bits [[1; 1; 1]; [0; 0; 0]].
Definition n1_ops : list (clf_op BM) := [CFit BM n1_X [1; 0] 0 10].
Lemma n1_created : clf_created n1_a n1_params.
Proof. apply clf_factory_created; [by constructor|vm_compute; reflexivity]. Qed.
Lemma n1_phys : Forall (clf_op_phys BM (bw_view mt42)) n1_ops.
Proof. constructor; [|constructor]. cbn [clf_op_phys].
  repeat (constructor; [split; [reflexivity|repeat (constructor; [apply block_ok_lt; vm_compute; reflexivity|]); constructor]|]); constructor. Qed.
Lemma n1_broken : exists e, clf_history toy_sch BM (bw_view mt42) n1_params n1_ops [CRStatus S_OK] e /\
  nm_rows (ta_matrix (e_ta e)) = 8%nat /\ nm_cols (ta_matrix (e_ta e)) = 3%nat /\
  nm_cell (ta_matrix (e_ta e)) 2 0 = 0 /\ bm_bit 64 (ta_pol (e_ta e)) 2 0 = false /\ nm_cell (ta_matrix (e_ta e)) 4 0 = 1.
Proof.
  destruct (probe_ret (clf_run toy_sch BM (construct toy_sch BM n1_params) n1_ops)
    (fun e => let m := ta_matrix (e_ta e) in (nm_rows m, nm_cols m, nm_cell m 2 0, bm_bit 64 (ta_pol (e_ta e)) 2 0, nm_cell m 4 0))
    [CRStatus S_OK] (8%nat, 3%nat, 0, false, 1)) as (e & H & Q); [vm_compute; reflexivity|].
  exists e. split; [exact (conj n1_phys H)|]. clear H.
  pose proof (f_equal (fun q => q.1.1.1.1) Q) as Q1. pose proof (f_equal (fun q => q.1.1.1.2) Q) as Q2. pose proof (f_equal (fun q => q.1.1.2) Q) as Q3.
  pose proof (f_equal (fun q => q.1.2) Q) as Q4. pose proof (f_equal snd Q) as Q5. cbn [fst snd] in *.
  exact (conj Q1 (conj Q2 (conj Q3 (conj Q4 Q5)))).
Qed.

(** ** A refit of a weighted estimator *)
Definition toy_fit3 : list (clf_op CL) := [CFit CL toy_X toy_y 0 3].
Lemma toy_weights_survive : exists e e1 e2, clf_history toy_sch CL (cl_view toy) toy_clf_params toy_fit3 [CRStatus S_OK] e /\
  clf_fit toy_sch CL e toy_X toy_y 0 0 = Ret (S_OK, e1) /\ clf_fit toy_sch CL (construct toy_sch CL toy_clf_params) toy_X toy_y 0 0 = Ret (S_OK, e2) /\
  ta_weights (e_ta e) = [1; 0; 2; 0] /\
  results (clf_decision toy_sch CL e1 toy_X) = Some (Right [[0; 3]; [0; 3]; [0; -1]; [0; -1]]) /\
  results (clf_decision toy_sch CL e2 toy_X) = Some (Right [[0; 1]; [0; 1]; [0; -1]; [0; -1]]).
Proof.
  destruct (probe_ret (clf_run toy_sch CL (construct toy_sch CL toy_clf_params) toy_fit3)
    (fun e => (ta_weights (e_ta e), probe (clf_fit toy_sch CL e toy_X toy_y 0 0) (fun e1 => results (clf_decision toy_sch CL e1 toy_X))))
    [CRStatus S_OK] ([1; 0; 2; 0], Some (S_OK, Some (Right [[0; 3]; [0; 3]; [0; -1]; [0; -1]])))) as (e & H & Q); [vm_compute; reflexivity|].
  destruct (probe_ret (clf_fit toy_sch CL (construct toy_sch CL toy_clf_params) toy_X toy_y 0 0) (fun e1 => results (clf_decision toy_sch CL e1 toy_X))
    S_OK (Some (Right [[0; 1]; [0; 1]; [0; -1]; [0; -1]]))) as (e2 & H2 & Q2); [vm_compute; reflexivity|].
  pose proof (f_equal fst Q) as Q1. pose proof (f_equal snd Q) as Q3. cbn [fst snd] in *.
  apply probe_ret in Q3 as (e1 & H1 & Q3). exists e, e1, e2. split; [split; [apply cl_ops_phys|exact H]|].
  split; [exact H1|]. split; [exact H2|]. split; [exact Q1|]. split; [exact Q3|exact Q2].
Qed.

(** ** Hypotheses of the universal statements *)
Definition big_args : clf_args := ClfArgs 4 10 (f32_of_Z 3) 1073741824 true 7 true 2 false "auto" 16 (Some 42).
Definition big_a : clf_args := clf_norm 4 99 big_args.
Definition big_params : params := params_of (make_classifier_params_from_args 4 99 big_args).
Lemma big_created : clf_created big_a big_params.
Proof. apply clf_factory_created; [by constructor|vm_compute; reflexivity]. Qed.
Lemma toy_good : good_samples CL (cl_view toy) 3 toy_X toy_y.
Proof. split; [done|split; [done|split; [by repeat constructor|apply toy_dense]]]. Qed.
Lemma toy_good0 : good_samples CL (cl_view toy) 3 toy_X [0; 0; 0; 0].
Proof. split; [done|split; [done|split; [by repeat constructor|apply toy_dense]]]. Qed.
Lemma toy_y_int : Forall (fun v => 0 <= v < int_max) toy_y.
Proof. repeat (constructor; [unfold int_max; lia|]); constructor. Qed.
