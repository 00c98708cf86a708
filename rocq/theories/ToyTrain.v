(** * Concrete trained estimators for the examples beside the training and invariant properties. *)
From Verif Require Export ToyFacts StepFacts.
From stdpp Require Import list.
Local Open Scope Z_scope.

Lemma synced_iff m q : polarity_synced m q ->
  bm_rows q = nm_rows m /\ bm_cols q = nm_cols m /\
  (forall r c, (r < nm_rows m)%nat -> (c < nm_cols m)%nat -> (bm_bit 64 q r c = true <-> 0 <= nm_cell m r c)) /\
  (forall r c, (r < nm_rows m)%nat -> (nm_cols m <= c < bm_row_blocks q * 64)%nat -> bm_bit 64 q r c = false).
Proof.
  intros (H1 & H2 & H3 & H4). split; [done|]. split; [done|]. split; [|done]. intros r c Hr Hc. rewrite H3 by done. apply Z.leb_le.
Qed.
(** rewrite with an equation about [f _], up to conversion of implicit types *)
Ltac conv f Q := match type of Q with _ = ?v => match goal with |- context[f ?m] => assert (f m = v) as -> by exact Q end end.
Lemma toy_both_ends : exists e,
  clf_history toy_sch CL (cl_view toy) toy_clf_params (toy_clf_ops CL toy_X) (toy_clf_res [0; 1; 0; 0] [0; 1; 1; 0]) e /\
  clf_created toy_a toy_clf_params /\
  (exists r c, (r < nm_rows (ta_matrix (e_ta e)))%nat /\ (c < nm_cols (ta_matrix (e_ta e)))%nat /\ nm_cell (ta_matrix (e_ta e)) r c = 4) /\
  (exists r c, (r < nm_rows (ta_matrix (e_ta e)))%nat /\ (c < nm_cols (ta_matrix (e_ta e)))%nat /\ nm_cell (ta_matrix (e_ta e)) r c = -7).
Proof.
  destruct (cl_probe (toy_clf_ops CL toy_X) (toy_clf_res [0; 1; 0; 0] [0; 1; 1; 0])
    (fun e => let m := ta_matrix (e_ta e) in (nm_rows m, nm_cols m, nm_cell m 5 0, nm_cell m 3 0)) (8%nat, 3%nat, 4, -7)) as (e & H & Q); [vm_compute; reflexivity|].
  injection Q as Q1 Q2 Q3 Q4. exists e. split; [done|]. split; [apply toy_clf_created|]. conv nm_rows Q1. conv nm_cols Q2.
  split; [exists 5%nat, 0%nat|exists 3%nat, 0%nat]; (split; [lia|]); (split; [lia|done]).
Qed.
Definition toy_bits_of (q : bmatrix) (rows cols : nat) : list (list bool) := map (fun r => map (bm_bit 64 q r) (seq 0 cols)) (seq 0 rows).
Lemma toy_signs : exists e,
  clf_history toy_sch BW (bw_view toy) toy_clf_params (toy_clf_ops BW toy_B) (toy_clf_res [0; 1; 1; 0] [0; 1; 1; 0]) e /\
  2 <= ca_states toy_a /\ nm_rows (ta_matrix (e_ta e)) = 8%nat /\ nm_cols (ta_matrix (e_ta e)) = 3%nat /\
  (exists r c, (r < 8)%nat /\ (c < 3)%nat /\ bm_bit 64 (ta_pol (e_ta e)) r c = true) /\
  (exists r c, (r < 8)%nat /\ (c < 3)%nat /\ bm_bit 64 (ta_pol (e_ta e)) r c = false).
Proof.
  destruct (bw_probe (toy_clf_ops BW toy_B) (toy_clf_res [0; 1; 1; 0] [0; 1; 1; 0])
    (fun e => let m := ta_matrix (e_ta e) in (nm_rows m, nm_cols m, bm_bit 64 (ta_pol (e_ta e)) 1 0, bm_bit 64 (ta_pol (e_ta e)) 0 0)) (8%nat, 3%nat, true, false))
    as (e & H & Q); [vm_compute; reflexivity|apply bw_ops_phys|].
  injection Q as Q1 Q2 Q3 Q4. exists e. split; [done|]. split; [vm_compute; done|]. split; [exact Q1|]. split; [exact Q2|].
  split; [exists 1%nat, 0%nat|exists 0%nat, 0%nat]; (split; [lia|]); (split; [lia|done]).
Qed.
Lemma toy_weights : exists e,
  clf_history toy_sch CL (cl_view toy) toy_clf_params (toy_clf_ops CL toy_X) (toy_clf_res [0; 1; 0; 0] [0; 1; 1; 0]) e /\
  ca_weighted toy_a = true /\ 1 < ca_max_weight toy_a /\ ta_weights (e_ta e) = [2; 1; 4; 0].
Proof.
  destruct (cl_probe (toy_clf_ops CL toy_X) (toy_clf_res [0; 1; 0; 0] [0; 1; 1; 0]) (fun e => ta_weights (e_ta e)) [2; 1; 4; 0]) as (e & H & Q); [vm_compute; reflexivity|].
  by exists e.
Qed.
Lemma narrowest_examples : narrowest "auto" 127 8 /\ narrowest "auto" 128 16 /\ narrowest "int8" 32768 32 /\ narrowest "int16" 3 16.
Proof.
  pose proof (fun c N => width_narrowest c N) as H. unfold int_max in H.
  split; [apply (H "auto"%string 127); [by left|lia]|]. split; [apply (H "auto"%string 128); [by left|lia]|].
  split; [apply (H "int8"%string 32768); [unfold counting_known; auto|lia]|apply (H "int16"%string 3); [unfold counting_known; auto|lia]].
Qed.

(** ** One training step *)
Definition toy_fit1 : list (clf_op CL) := [CFit CL toy_X toy_y 0 1].
Lemma toy_step : exists e e1 e2, clf_history toy_sch CL (cl_view toy) toy_clf_params toy_fit1 [CRStatus S_OK] e /\
  clf_dims_of toy_fit1 [CRStatus S_OK] = Some (2%nat, 3%nat) /\
  (** label 1: clause 2 fires and gets Type I, clause 3 is silent and gets Type II *)
  clf_partial_fit toy_sch CL e [[0; 1; 1]] [1] 0 1 = Ret (S_OK, e1) /\
  gets_type1 toy_sch CL (cl_view toy) toy_a e 2 3 [0; 1; 1] 1 2 /\ fires (cl_view toy) 3 (e_ta e) [0; 1; 1] 2 = true /\
  gets_type2 toy_sch CL (cl_view toy) toy_a e 2 3 [0; 1; 1] 1 3 /\ fires (cl_view toy) 3 (e_ta e) [0; 1; 1] 3 = false /\
  (** label 0: clause 0 is silent and gets Type I, clause 1 fires and gets Type II *)
  clf_partial_fit toy_sch CL e [[0; 1; 1]] [0] 0 1 = Ret (S_OK, e2) /\
  gets_type1 toy_sch CL (cl_view toy) toy_a e 2 3 [0; 1; 1] 0 0 /\ fires (cl_view toy) 3 (e_ta e) [0; 1; 1] 0 = false /\
  gets_type2 toy_sch CL (cl_view toy) toy_a e 2 3 [0; 1; 1] 0 1 /\ fires (cl_view toy) 3 (e_ta e) [0; 1; 1] 1 = true.
Proof.
  destruct (cl_probe toy_fit1 [CRStatus S_OK] (fun e =>
    (results (clf_partial_fit toy_sch CL e [[0; 1; 1]] [1] 0 1), results (clf_partial_fit toy_sch CL e [[0; 1; 1]] [0] 0 1),
     map (fires (cl_view toy) 3 (e_ta e) [0; 1; 1]) [0; 1; 2; 3]%nat,
     f_gt (f_draw toy (e_fgen e) 0) (target_thr 5 (train_votes (cl_view toy) toy_a 3 (e_ta e) [0; 1; 1] 1)),
     f_gt (f_draw toy (e_fgen e) 1) (target_thr 5 (train_votes (cl_view toy) toy_a 3 (e_ta e) [0; 1; 1] 1)),
     f_gt (f_draw toy (e_fgen e) 0) (target_thr 5 (train_votes (cl_view toy) toy_a 3 (e_ta e) [0; 1; 1] 0)),
     f_gt (f_draw toy (e_fgen e) 1) (target_thr 5 (train_votes (cl_view toy) toy_a 3 (e_ta e) [0; 1; 1] 0))))
    (Some S_OK, Some S_OK, [false; true; true; false], false, false, false, false)) as (e & H & Q); [vm_compute; reflexivity|].
  injection Q as Q1 Q2 F0 F1 F2 F3 D1 D2 D3 D4. apply results_ret in Q1 as (e1 & Q1). apply results_ret in Q2 as (e2 & Q2).
  exists e, e1, e2. split; [exact H|]. split; [reflexivity|]. split; [exact Q1|].
  split; [exists 0%nat; split; [vm_compute; lia|]; left; split; [done|split; [reflexivity|exact D1]]|]. split; [exact F2|].
  split; [exists 1%nat; split; [vm_compute; lia|]; left; split; [done|split; [reflexivity|exact D2]]|]. split; [exact F3|].
  split; [exact Q2|].
  split; [exists 0%nat; split; [vm_compute; lia|]; left; split; [done|split; [reflexivity|exact D3]]|]. split; [exact F0|].
  split; [exists 1%nat; split; [vm_compute; lia|]; left; split; [done|split; [reflexivity|exact D4]]|]. exact F1.
Qed.
(** the trained regressor answers 2 for a sample whose response is 5: Type I; 5 where it should be 0: Type II *)
Definition toy_rfit6 : list (reg_op CL) := [RFit CL toy_X toy_ry 6].
Lemma toy_reg_step : exists e e1 e2, reg_history toy_sch CL (cl_view toy) toy_reg_params toy_rfit6 [RRStatus S_OK] e /\
  reg_dims_of toy_rfit6 [RRStatus S_OK] = Some 3%nat /\ ta_weights (e_ta e) = [1; 4] /\
  reg_partial_fit toy_sch CL e [[0; 1; 1]] [5] 1 = Ret (S_OK, e1) /\
  train_response (cl_view toy) toy_ra 3 (e_ta e) [0; 1; 1] = 2 /\ ta_weights (e_ta e1) = [2; 4] /\
  reg_partial_fit toy_sch CL e [[1; 1; 0]] [0] 1 = Ret (S_OK, e2) /\
  train_response (cl_view toy) toy_ra 3 (e_ta e) [1; 1; 0] = 5 /\ ta_weights (e_ta e2) = [1; 3].
Proof.
  destruct (rcl_probe toy_rfit6 [RRStatus S_OK] (fun e =>
    (probe (reg_partial_fit toy_sch CL e [[0; 1; 1]] [5] 1) (fun e1 => ta_weights (e_ta e1)),
     probe (reg_partial_fit toy_sch CL e [[1; 1; 0]] [0] 1) (fun e1 => ta_weights (e_ta e1)),
     train_response (cl_view toy) toy_ra 3 (e_ta e) [0; 1; 1], train_response (cl_view toy) toy_ra 3 (e_ta e) [1; 1; 0],
     ta_weights (e_ta e)))
    (Some (S_OK, [2; 4]), Some (S_OK, [1; 3]), 2, 5, [1; 4])) as (e & H & Q); [vm_compute; reflexivity|].
  pose proof (f_equal (fun q => q.1.1.1.1) Q) as P1. pose proof (f_equal (fun q => q.1.1.1.2) Q) as P2.
  pose proof (f_equal (fun q => q.1.1.2) Q) as P3. pose proof (f_equal (fun q => q.1.2) Q) as P4.
  pose proof (f_equal (fun q => q.2) Q) as P5. cbn [fst snd] in P1, P2, P3, P4, P5. clear Q.
  apply probe_ret in P1 as (e1 & R1 & V1). apply probe_ret in P2 as (e2 & R2 & V2).
  exists e, e1, e2. split; [exact H|]. split; [reflexivity|]. split; [exact P5|]. split; [exact R1|]. split; [exact P3|]. split; [exact V1|].
  split; [exact R2|]. split; [exact P4|exact V2].
Qed.
(** ** Examples for the other training properties *)
(** the same arguments without clause weights; with seven threads and tile size 64 *)
Definition toy_uargs : clf_args := ClfArgs 4 10 (f32_of_Z 3) 5 false 7 true 2 false "auto" 16 (Some 42).
Definition toy_ua : clf_args := clf_norm 4 99 toy_uargs.
Definition toy_jargs : clf_args := ClfArgs 4 10 (f32_of_Z 3) 5 true 7 true 7 false "auto" 64 (Some 42).
Definition toy_uparams : params := params_of (make_classifier_params_from_args 4 99 toy_uargs).
Lemma toy_ucreated : clf_created toy_ua toy_uparams.
Proof. apply clf_factory_created; [by constructor|vm_compute; reflexivity]. Qed.
Definition toy_jparams : params := params_of (make_classifier_params_from_args 4 99 toy_jargs).
Lemma toy_jtyped : clf_typed toy_jargs.
Proof. by constructor. Qed.
Lemma toy_jmade : make_classifier_params_from_args 4 99 toy_jargs = Ret (Right toy_jparams).
Proof. vm_compute. reflexivity. Qed.
Lemma toy_clf_made : make_classifier_params_from_args 4 99 toy_clf_args = Ret (Right toy_clf_params).
Proof. vm_compute. reflexivity. Qed.
Lemma toy_jcreated : clf_created (clf_norm 4 99 toy_jargs) toy_jparams.
Proof. exact (clf_factory_created _ _ _ _ toy_jtyped toy_jmade). Qed.
Lemma toy_refit : exists p e e1 e2, clf_created toy_ua p /\ ca_weighted toy_ua = false /\
  clf_history toy_sch CL (cl_view toy) p toy_fit1 [CRStatus S_OK] e /\
  clf_fit toy_sch CL e toy_X toy_y 0 2 = Ret (S_OK, e1) /\ clf_fit toy_sch CL (construct toy_sch CL p) toy_X toy_y 0 2 = Ret (S_OK, e2).
Proof.
  destruct (probe_ret (clf_run toy_sch CL (construct toy_sch CL toy_uparams) toy_fit1)
    (fun e => (results (clf_fit toy_sch CL e toy_X toy_y 0 2), results (clf_fit toy_sch CL (construct toy_sch CL toy_uparams) toy_X toy_y 0 2)))
    [CRStatus S_OK] (Some S_OK, Some S_OK)) as (e & H & Q); [vm_compute; reflexivity|].
  pose proof (f_equal fst Q) as Q1. pose proof (f_equal snd Q) as Q2. cbn [fst snd] in Q1, Q2.
  apply results_ret in Q1 as (e1 & Q1). apply results_ret in Q2 as (e2 & Q2).
  exists toy_uparams, e, e1, e2. split; [exact toy_ucreated|]. split; [reflexivity|].
  split; [split; [apply cl_ops_phys|exact H]|]. split; [exact Q1|exact Q2].
Qed.
Lemma toy_fits : exists e1, clf_fit toy_sch CL (construct toy_sch CL toy_clf_params) toy_X toy_y 0 2 = Ret (S_OK, e1).
Proof. apply results_ret. vm_compute. reflexivity. Qed.
Lemma toy_first : exists e, clf_history toy_sch CL (cl_view toy) toy_clf_params [CFit CL toy_X [0; 1; -1; 0] 0 3] [CRStatus S_VALUE_ERROR] e /\
  CRStatus S_OK ∉ [CRStatus S_VALUE_ERROR] /\ results (clf_partial_fit toy_sch CL e toy_X toy_y 0 1) = Some S_OK.
Proof.
  destruct (cl_probe [CFit CL toy_X [0; 1; -1; 0] 0 3] [CRStatus S_VALUE_ERROR] (fun e => results (clf_partial_fit toy_sch CL e toy_X toy_y 0 1)) (Some S_OK))
    as (e & H & Q); [vm_compute; reflexivity|]. exists e. split; [exact H|]. split; [|exact Q]. rewrite elem_of_list_singleton. discriminate.
Qed.
Lemma toy_jobs : exists a2 p2 e1 e2, clf_created a2 p2 /\ ca_n_jobs a2 = 7 /\ ca_tile a2 = 64 /\ ca_n_jobs toy_a = 2 /\ ca_tile toy_a = 16 /\
  (forall k, k <> "n_jobs"%string -> k <> "clause_output_tile_size"%string -> p2 !! k = toy_clf_params !! k) /\
  clf_history toy_sch CL (cl_view toy) toy_clf_params (toy_clf_ops CL toy_X) (toy_clf_res [0; 1; 0; 0] [0; 1; 1; 0]) e1 /\
  clf_history toy_sch2 CL (cl_view toy) p2 (toy_clf_ops CL toy_X) (toy_clf_res [0; 1; 0; 0] [0; 1; 1; 0]) e2.
Proof.
  destruct (results_ret (clf_run toy_sch CL cl_start (toy_clf_ops CL toy_X)) (toy_clf_res [0; 1; 0; 0] [0; 1; 1; 0])) as (e1 & H1); [vm_compute; reflexivity|].
  destruct (results_ret (clf_run toy_sch2 CL (construct toy_sch2 CL toy_jparams) (toy_clf_ops CL toy_X)) (toy_clf_res [0; 1; 0; 0] [0; 1; 1; 0])) as (e2 & H2); [vm_compute; reflexivity|].
  exists (clf_norm 4 99 toy_jargs), toy_jparams, e1, e2. split; [exact toy_jcreated|].
  do 4 (split; [reflexivity|]). split; [|split; (split; [apply cl_ops_phys|assumption])].
  intros k Hk1 Hk2.
  destruct (clf_factory_preserves 4 99 toy_jargs toy_jparams toy_jtyped toy_jmade) as (P1 & _ & _ & P2 & _).
  destruct (clf_factory_preserves 4 99 toy_clf_args toy_clf_params toy_clf_typed toy_clf_made) as (Q1 & _ & _ & Q2 & _).
  destruct (decide (k = "random_state"%string)) as [->|Hk3]; [by rewrite (P2 42 eq_refl), (Q2 42 eq_refl)|].
  rewrite (P1 k Hk1 Hk3), (Q1 k Hk1 Hk3). unfold clf_args_params. cbn [toy_jargs toy_clf_args ca_clauses ca_states ca_s ca_threshold ca_weighted ca_max_weight ca_boost ca_n_jobs ca_verbose ca_counting ca_tile ca_seed].
  rewrite (lookup_insert_ne _ "random_state"%string), (lookup_insert_ne _ "clause_output_tile_size"%string) by done.
  symmetry. rewrite (lookup_insert_ne _ "random_state"%string), (lookup_insert_ne _ "clause_output_tile_size"%string) by done. symmetry.
  destruct (decide (k = "counting_type"%string)) as [->|Hk4]; [by rewrite !lookup_insert|rewrite !(lookup_insert_ne _ "counting_type"%string) by done].
  destruct (decide (k = "verbose"%string)) as [->|Hk5]; [by rewrite !lookup_insert|rewrite !(lookup_insert_ne _ "verbose"%string) by done].
  by rewrite !(lookup_insert_ne _ "n_jobs"%string) by done.
Qed.
Lemma toy_more : exists e e', clf_history toy_sch CL (cl_view toy) toy_clf_params toy_fit1 [CRStatus S_OK] e /\
  clf_partial_fit toy_sch CL e toy_X toy_y 0 3 = Ret (S_OK, e') /\ ta_weights (e_ta e) <> ta_weights (e_ta e').
Proof.
  destruct (cl_probe toy_fit1 [CRStatus S_OK] (fun e => probe (clf_partial_fit toy_sch CL e toy_X toy_y 0 3)
    (fun e' => bool_decide (ta_weights (e_ta e) = ta_weights (e_ta e')))) (Some (S_OK, false))) as (e & H & Q); [vm_compute; reflexivity|].
  apply probe_ret in Q as (e' & Q & B). exists e, e'. split; [exact H|]. split; [exact Q|]. by apply bool_decide_eq_false in B.
Qed.
Lemma toy_seeded : clf_typed toy_clf_args /\ ca_seed toy_clf_args = Some 42 /\
  make_classifier_params_from_args 4 99 toy_clf_args = Ret (Right toy_clf_params) /\
  exists e, clf_history toy_sch CL (cl_view toy) toy_clf_params (toy_clf_ops CL toy_X) (toy_clf_res [0; 1; 0; 0] [0; 1; 1; 0]) e.
Proof. split; [exact toy_clf_typed|]. split; [reflexivity|]. split; [vm_compute; reflexivity|]. exact toy_classic_clf. Qed.
