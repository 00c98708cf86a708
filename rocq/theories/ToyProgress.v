(** * Examples for C80. *)
From Verif Require Import Toy ToyFacts ToyTrain Relevance Learned Progress.
From stdpp Require Import list.
Local Open Scope Z_scope.

(** three epochs on a sample taken for label 1: the votes turn to label 0, which was wanted *)
Lemma progress_example : exists e e', clf_history toy_sch CL (cl_view toy) toy_clf_params [CFit CL toy_X toy_y 0 1] [CRStatus S_OK] e /\
  clf_dims_of [CFit CL toy_X toy_y 0 1] [CRStatus S_OK] = Some (2%nat, 3%nat) /\
  clf_partial_fit toy_sch CL e [[0; 0; 1]] [0] 0 3 = Ret (S_OK, e') /\
  results (clf_decision1 toy_sch CL e [0; 0; 1]) = Some (Right [0; 2]) /\
  results (clf_decision1 toy_sch CL e' [0; 0; 1]) = Some (Right [2; 0]).
Proof.
  destruct (probe_ret (clf_run toy_sch CL (construct toy_sch CL toy_clf_params) [CFit CL toy_X toy_y 0 1])
    (fun e => (results (clf_decision1 toy_sch CL e [0; 0; 1]),
       match clf_partial_fit toy_sch CL e [[0; 0; 1]] [0] 0 3 with Ret (s, e') => Some (s, results (clf_decision1 toy_sch CL e' [0; 0; 1])) | _ => None end))
    [CRStatus S_OK] (Some (Right [0; 2]), Some (S_OK, Some (Right [2; 0])))) as (e & E & H); [vm_compute; reflexivity|].
  exists e. pose proof (f_equal fst H) as H1. pose proof (f_equal snd H) as H2. cbn [fst snd] in H1, H2. clear H.
  destruct (clf_partial_fit toy_sch CL e [[0; 0; 1]] [0] 0 3) as [[s e']| | |]; [|discriminate H2..].
  exists e'. pose proof (f_equal (fun q => match q with Some (a, _) => a | None => s end) H2) as H3. pose proof (f_equal (fun q => match q with Some (_, a) => a | None => None end) H2) as H4.
  cbn in H3, H4. split; [split; [apply cl_ops_phys|exact E]|]. clear E H2. split; [reflexivity|]. rewrite H3. split; [reflexivity|]. split; [exact H1|exact H4].
Qed.
(** the regressor: a prediction below the response goes up (past it), one above it comes down *)
Lemma progress_reg_example : exists e e1 e2, reg_history toy_sch CL (cl_view toy) toy_reg_params [RFit CL toy_X toy_ry 2] [RRStatus S_OK] e /\
  reg_dims_of [RFit CL toy_X toy_ry 2] [RRStatus S_OK] = Some 3%nat /\
  reg_partial_fit toy_sch CL e [[1; 0; 0]] [1] 1 = Ret (S_OK, e1) /\ train_response (cl_view toy) toy_ra 3 (e_ta e) [1; 0; 0] = 0 /\
  results (reg_predict1 toy_sch CL e [1; 0; 0]) = Some (Right 0) /\ results (reg_predict1 toy_sch CL e1 [1; 0; 0]) = Some (Right 2) /\
  reg_partial_fit toy_sch CL e [[1; 1; 0]] [0] 1 = Ret (S_OK, e2) /\
  results (reg_predict1 toy_sch CL e [1; 1; 0]) = Some (Right 2) /\ results (reg_predict1 toy_sch CL e2 [1; 1; 0]) = Some (Right 1).
Proof.
  destruct (probe_ret (reg_run toy_sch CL (construct toy_sch CL toy_reg_params) [RFit CL toy_X toy_ry 2])
    (fun e => (results (reg_predict1 toy_sch CL e [1; 0; 0]), results (reg_predict1 toy_sch CL e [1; 1; 0]), train_response (cl_view toy) toy_ra 3 (e_ta e) [1; 0; 0],
       match reg_partial_fit toy_sch CL e [[1; 0; 0]] [1] 1 with Ret (s, e') => Some (s, results (reg_predict1 toy_sch CL e' [1; 0; 0])) | _ => None end,
       match reg_partial_fit toy_sch CL e [[1; 1; 0]] [0] 1 with Ret (s, e') => Some (s, results (reg_predict1 toy_sch CL e' [1; 1; 0])) | _ => None end))
    [RRStatus S_OK] (Some (Right 0), Some (Right 2), 0, Some (S_OK, Some (Right 2)), Some (S_OK, Some (Right 1)))) as (e & E & H); [vm_compute; reflexivity|].
  exists e. pose proof (f_equal (fun q => q.1.1.1.1) H) as H1. pose proof (f_equal (fun q => q.1.1.1.2) H) as H2. pose proof (f_equal (fun q => q.1.1.2) H) as H3.
  pose proof (f_equal (fun q => q.1.2) H) as H4. pose proof (f_equal (fun q => q.2) H) as H5. cbn [fst snd] in H1, H2, H3, H4, H5. clear H.
  destruct (reg_partial_fit toy_sch CL e [[1; 0; 0]] [1] 1) as [[s1 e1]| | |]; [|discriminate H4..].
  destruct (reg_partial_fit toy_sch CL e [[1; 1; 0]] [0] 1) as [[s2 e2]| | |]; [|discriminate H5..].
  exists e1, e2. pose proof (f_equal (fun q => match q with Some (a, _) => a | None => s1 end) H4) as K1. pose proof (f_equal (fun q => match q with Some (_, a) => a | None => None end) H4) as K2.
  pose proof (f_equal (fun q => match q with Some (a, _) => a | None => s2 end) H5) as K3. pose proof (f_equal (fun q => match q with Some (_, a) => a | None => None end) H5) as K4.
  cbn in K1, K2, K3, K4. split; [split; [apply rcl_ops_phys|exact E]|]. clear E H4 H5. split; [reflexivity|]. rewrite K1, K3. do 2 (split; [reflexivity || exact H3|]).
  split; [exact H1|]. split; [exact K2|]. split; [reflexivity|]. split; [exact H2|exact K4].
Qed.
