(** * Concrete pairs of estimators for the statements about irrelevant settings. *)
From Verif Require Export WideProps ToyTrain.
From stdpp Require Import list.
Local Open Scope Z_scope.

(** 32-bit cells, seven jobs, larger tiles, verbose; other settings as in [toy_clf_args] *)
Definition toy_wargs : clf_args := ClfArgs 4 10 (f32_of_Z 3) 5 true 7 true 7 true "int32" 64 (Some 42).
Definition toy_wparams : params := params_of (make_classifier_params_from_args 4 99 toy_wargs).
Lemma toy_wcreated : clf_created (clf_norm 4 99 toy_wargs) toy_wparams.
Proof. apply clf_factory_created; [by constructor|vm_compute; reflexivity]. Qed.
Definition toy_wrargs : reg_args := RegArgs 4 10 (f32_of_Z 3) 5 true 7 true 7 true "int16" 64 "MSE" (S754_zero false) false (Some 42).
Definition toy_wrparams : params := params_of (make_regressor_params_from_args 4 99 toy_wrargs).
Lemma toy_wrcreated : reg_created (reg_norm 4 99 toy_wrargs) toy_wrparams.
Proof. apply reg_factory_created; [by constructor|vm_compute; reflexivity]. Qed.

(** weighted with a maximal weight of 1 ([toy_uargs]: unweighted, maximal weight 7) *)
Definition toy_1args : clf_args := ClfArgs 4 10 (f32_of_Z 3) 5 true 1 true 2 false "int16" 16 (Some 42).
Definition toy_1params : params := params_of (make_classifier_params_from_args 4 99 toy_1args).
Lemma toy_1created : clf_created (clf_norm 4 99 toy_1args) toy_1params.
Proof. apply clf_factory_created; [by constructor|vm_compute; reflexivity]. Qed.
Definition toy_urargs : reg_args := RegArgs 4 10 (f32_of_Z 3) 5 false 7 true 2 false "auto" 16 "MSE" (S754_zero false) false (Some 42).
Definition toy_urparams : params := params_of (make_regressor_params_from_args 4 99 toy_urargs).
Lemma toy_urcreated : reg_created (reg_norm 4 99 toy_urargs) toy_urparams.
Proof. apply reg_factory_created; [by constructor|vm_compute; reflexivity]. Qed.
Definition toy_1rargs : reg_args := RegArgs 4 10 (f32_of_Z 3) 5 true 1 true 2 false "auto" 16 "MSE" (S754_zero false) false (Some 42).
Definition toy_1rparams : params := params_of (make_regressor_params_from_args 4 99 toy_1rargs).
Lemma toy_1rcreated : reg_created (reg_norm 4 99 toy_1rargs) toy_1rparams.
Proof. apply reg_factory_created; [by constructor|vm_compute; reflexivity]. Qed.

Definition facts {T P SS G F} (o : outcome (T * est P SS G F)) : option (T * Z * list Z) :=
  match o with Ret (r, e) => Some (r, nm_w (ta_matrix (e_ta e)), ta_weights (e_ta e)) | _ => None end.
Lemma facts_ret {T P SS G F} (o : outcome (T * est P SS G F)) r w ws : facts o = Some (r, w, ws) ->
  exists e, o = Ret (r, e) /\ nm_w (ta_matrix (e_ta e)) = w /\ ta_weights (e_ta e) = ws.
Proof. destruct o as [[r' e]| | |]; cbn; try done. intros [= <- <- <-]. by exists e. Qed.

Lemma toy_storage : exists a2 p2 e1 e2, clf_created toy_a toy_clf_params /\ clf_created a2 p2 /\ clf_same_but_storage toy_a a2 /\
  ca_counting a2 = "int32"%string /\ ca_n_jobs a2 = 7 /\ ca_verbose a2 = true /\
  clf_history toy_sch BW (bw_view toy) toy_clf_params (toy_clf_ops BW toy_B) (toy_clf_res [0; 1; 1; 0] [0; 1; 1; 0]) e1 /\
  clf_history toy_sch2 BW (bw_view toy) p2 (toy_clf_ops BW toy_B) (toy_clf_res [0; 1; 1; 0] [0; 1; 1; 0]) e2 /\
  nm_w (ta_matrix (e_ta e1)) = 8 /\ nm_w (ta_matrix (e_ta e2)) = 32 /\ ta_weights (e_ta e1) = [1; 1; 4; 0].
Proof.
  destruct (facts_ret (clf_run toy_sch BW (construct toy_sch BW toy_clf_params) (toy_clf_ops BW toy_B)) (toy_clf_res [0; 1; 1; 0] [0; 1; 1; 0]) 8 [1; 1; 4; 0])
    as (e1 & H1 & W1 & V1); [vm_compute; reflexivity|].
  destruct (facts_ret (clf_run toy_sch2 BW (construct toy_sch2 BW toy_wparams) (toy_clf_ops BW toy_B)) (toy_clf_res [0; 1; 1; 0] [0; 1; 1; 0]) 32 [1; 1; 4; 0])
    as (e2 & H2 & W2 & V2); [vm_compute; reflexivity|].
  exists (clf_norm 4 99 toy_wargs), toy_wparams, e1, e2. split; [exact toy_clf_created|]. split; [exact toy_wcreated|].
  split; [constructor; vm_compute; reflexivity|]. do 3 (split; [reflexivity|]). do 2 (split; [split; [apply bw_ops_phys|assumption]|]). repeat (split; [assumption|]). assumption.
Qed.
Lemma toy_rstorage : exists a2 p2 e1 e2, reg_created toy_ra toy_reg_params /\ reg_created a2 p2 /\ reg_same_but_storage toy_ra a2 /\
  ra_counting a2 = "int16"%string /\
  reg_history toy_sch CL (cl_view toy) toy_reg_params (toy_reg_ops CL toy_X) (toy_reg_res [0; 2; 0; 3] [0; 2; 0; 4]) e1 /\
  reg_history toy_sch2 CL (cl_view toy) p2 (toy_reg_ops CL toy_X) (toy_reg_res [0; 2; 0; 3] [0; 2; 0; 4]) e2 /\
  nm_w (ta_matrix (e_ta e1)) = 8 /\ nm_w (ta_matrix (e_ta e2)) = 16 /\ ta_weights (e_ta e1) = [1; 3].
Proof.
  destruct (facts_ret (reg_run toy_sch CL (construct toy_sch CL toy_reg_params) (toy_reg_ops CL toy_X)) (toy_reg_res [0; 2; 0; 3] [0; 2; 0; 4]) 8 [1; 3])
    as (e1 & H1 & W1 & V1); [vm_compute; reflexivity|].
  destruct (facts_ret (reg_run toy_sch2 CL (construct toy_sch2 CL toy_wrparams) (toy_reg_ops CL toy_X)) (toy_reg_res [0; 2; 0; 3] [0; 2; 0; 4]) 16 [1; 3])
    as (e2 & H2 & W2 & V2); [vm_compute; reflexivity|].
  exists (reg_norm 4 99 toy_wrargs), toy_wrparams, e1, e2. split; [exact toy_reg_created|]. split; [exact toy_wrcreated|].
  split; [constructor; vm_compute; reflexivity|]. split; [reflexivity|]. do 2 (split; [split; [apply rcl_ops_phys|assumption]|]). repeat (split; [assumption|]). assumption.
Qed.
Lemma toy_trivial : exists a1 p1 a2 p2 e1 e2, clf_created a1 p1 /\ clf_created a2 p2 /\ clf_same_but_weighting a1 a2 /\
  ca_weighted a1 = false /\ ca_max_weight a1 = 7 /\ ca_weighted a2 = true /\ ca_max_weight a2 = 1 /\
  clf_history toy_sch CL (cl_view toy) p1 (toy_clf_ops CL toy_X) (toy_clf_res [0; 1; 0; 0] [0; 1; 0; 0]) e1 /\
  clf_history toy_sch CL (cl_view toy) p2 (toy_clf_ops CL toy_X) (toy_clf_res [0; 1; 0; 0] [0; 1; 0; 0]) e2 /\
  ta_weights (e_ta e1) = [] /\ ta_weights (e_ta e2) = [0; 0; 0; 0].
Proof.
  destruct (facts_ret (clf_run toy_sch CL (construct toy_sch CL toy_uparams) (toy_clf_ops CL toy_X)) (toy_clf_res [0; 1; 0; 0] [0; 1; 0; 0]) 8 [])
    as (e1 & H1 & W1 & V1); [vm_compute; reflexivity|].
  destruct (facts_ret (clf_run toy_sch CL (construct toy_sch CL toy_1params) (toy_clf_ops CL toy_X)) (toy_clf_res [0; 1; 0; 0] [0; 1; 0; 0]) 16 [0; 0; 0; 0])
    as (e2 & H2 & W2 & V2); [vm_compute; reflexivity|].
  exists toy_ua, toy_uparams, (clf_norm 4 99 toy_1args), toy_1params, e1, e2. split; [exact toy_ucreated|]. split; [exact toy_1created|].
  split; [constructor; vm_compute; reflexivity|]. do 4 (split; [reflexivity|]). do 2 (split; [split; [apply cl_ops_phys|assumption]|]). repeat (split; [assumption|]). assumption.
Qed.
Lemma toy_rtrivial : exists a1 p1 a2 p2 e1 e2, reg_created a1 p1 /\ reg_created a2 p2 /\ reg_same_but_weighting a1 a2 /\
  ra_weighted a1 = false /\ ra_max_weight a1 = 7 /\ ra_weighted a2 = true /\ ra_max_weight a2 = 1 /\
  reg_history toy_sch BW (bw_view toy) p1 (toy_reg_ops BW toy_B) (toy_reg_res [1; 1; 1; 0] [1; 1; 1; 1]) e1 /\
  reg_history toy_sch BW (bw_view toy) p2 (toy_reg_ops BW toy_B) (toy_reg_res [1; 1; 1; 0] [1; 1; 1; 1]) e2 /\
  ta_weights (e_ta e1) = [] /\ ta_weights (e_ta e2) = [0; 0].
Proof.
  destruct (facts_ret (reg_run toy_sch BW (construct toy_sch BW toy_urparams) (toy_reg_ops BW toy_B)) (toy_reg_res [1; 1; 1; 0] [1; 1; 1; 1]) 8 [])
    as (e1 & H1 & W1 & V1); [vm_compute; reflexivity|].
  destruct (facts_ret (reg_run toy_sch BW (construct toy_sch BW toy_1rparams) (toy_reg_ops BW toy_B)) (toy_reg_res [1; 1; 1; 0] [1; 1; 1; 1]) 8 [0; 0])
    as (e2 & H2 & W2 & V2); [vm_compute; reflexivity|].
  exists (reg_norm 4 99 toy_urargs), toy_urparams, (reg_norm 4 99 toy_1rargs), toy_1rparams, e1, e2. split; [exact toy_urcreated|]. split; [exact toy_1rcreated|].
  split; [constructor; vm_compute; reflexivity|]. do 4 (split; [reflexivity|]). do 2 (split; [split; [apply rbw_ops_phys|assumption]|]). repeat (split; [assumption|]). assumption.
Qed.
