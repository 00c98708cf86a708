(** * A concrete log. *)
From Verif Require Import ToyWide LogSpec.
From stdpp Require Import list.
Local Open Scope string_scope.
Local Open Scope list_scope.
Local Open Scope Z_scope.

(** rejected fit, prediction before training, fit of two epochs, rejected partial_fit, partial_fit of one epoch *)
Definition log_ops : list (clf_op CL) :=
  [CFit CL toy_X [0; -1; 1; 0] 0 1; CPredict1 CL [0; 0; 1]; CFit CL toy_X toy_y 3 2; CPartialFit CL toy_X [0; 1; 1; 3] 0 5; CPartialFit CL toy_X toy_y 0 1].
Definition log_res : list clf_res :=
  [CRStatus S_VALUE_ERROR; CRLabel (Left S_NOT_FITTED_ERROR); CRStatus S_OK; CRStatus S_VALUE_ERROR; CRStatus S_OK].
Definition log_lines : log :=
  [info "number_of_labels: " (IInt 3); info "number_of_clauses: " (IInt 12); info "number_of_features: " (IInt 3);
   info "s: " (IFloat (f32_of_Z 3)); info "number_of_states: " (IInt 10); info "threshold: " (IInt 5); info "weighted: " (IBool true);
   info "max_weight: " (IInt 7); info "counting_type: " (IString "int32"); info "n_jobs: " (IInt 7); info "random_state: " (IInt 42);
   Line LTrace "tsetlini-core" "Selected int32 for ta_state" INothing;
   Line LInfo "tsetlini" "Epoch " (IInt 1); Line LInfo "tsetlini" "Epoch " (IInt 2); Line LInfo "tsetlini" "Epoch " (IInt 1)].
Definition rlog_ops : list (reg_op CL) := [RPartialFit CL toy_X toy_ry 1; RPartialFit CL toy_X [1; 2; 9; 0] 1; RPredict CL toy_X; RPartialFit CL toy_X toy_ry 1].
Definition rlog_lines : log :=
  [info "number_of_clauses: " (IInt 4); info "number_of_features: " (IInt 3);
   info "s: " (IFloat (f32_of_Z 3)); info "number_of_states: " (IInt 10); info "threshold: " (IInt 5); info "weighted: " (IBool true);
   info "max_weight: " (IInt 7); info "loss_fn: " (IString "MSE"); info "loss_fn(C1): " (IFloat (S754_zero false)); info "box_muller: " (IBool false);
   info "counting_type: " (IString "int16"); info "n_jobs: " (IInt 7); info "random_state: " (IInt 42);
   Line LTrace "tsetlini-core" "Selected int16 for ta_state" INothing;
   Line LInfo "tsetlini" "Epoch " (IInt 1); Line LInfo "tsetlini" "Epoch " (IInt 1)].

Definition logged {P SS G F T} (o : outcome (T * est P SS G F * log)) : option (T * log) :=
  match o with Ret (r, _, w) => Some (r, w) | _ => None end.
Lemma logged_ret {P SS G F T} (o : outcome (T * est P SS G F * log)) r w : logged o = Some (r, w) -> exists e, o = Ret (r, e, w).
Proof. destruct o as [[[r' e] w']| | |]; cbn; try done. intros [= <- <-]. by exists e. Qed.

Lemma log_example : ca_seed (clf_norm 4 99 toy_wargs) = Some 42 /\ ca_verbose (clf_norm 4 99 toy_wargs) = true /\
  clf_created (clf_norm 4 99 toy_wargs) toy_wparams /\ Forall (clf_op_phys CL (cl_view toy)) log_ops /\
  exists e, clf_run_logged toy_sch CL (construct toy_sch CL toy_wparams) log_ops [] = Ret (log_res, e, log_lines).
Proof.
  split; [reflexivity|]. split; [reflexivity|]. split; [exact toy_wcreated|]. split; [apply cl_ops_phys|].
  apply logged_ret. vm_compute. reflexivity.
Qed.
Lemma rlog_example : ra_seed (reg_norm 4 99 toy_wrargs) = Some 42 /\ ra_verbose (reg_norm 4 99 toy_wrargs) = true /\
  reg_created (reg_norm 4 99 toy_wrargs) toy_wrparams /\ Forall (reg_op_phys CL (cl_view toy)) rlog_ops /\
  exists rs e, rs = [RRStatus S_OK; RRStatus S_VALUE_ERROR; RRResps (Right [0; 3; 0; 1]); RRStatus S_OK] /\
    reg_run_logged toy_sch CL (construct toy_sch CL toy_wrparams) rlog_ops [] = Ret (rs, e, rlog_lines).
Proof.
  split; [reflexivity|]. split; [reflexivity|]. split; [exact toy_wrcreated|]. split; [apply rcl_ops_phys|].
  destruct (logged_ret (reg_run_logged toy_sch CL (construct toy_sch CL toy_wrparams) rlog_ops [])
    [RRStatus S_OK; RRStatus S_VALUE_ERROR; RRResps (Right [0; 3; 0; 1]); RRStatus S_OK] rlog_lines) as [e E]; [vm_compute; reflexivity|].
  eexists. exists e. split; [reflexivity|exact E].
Qed.
