(** * Property theorems about the log: C81.  Specification: LogSpec.v.
      Reading guide: [clf_run_logged S A e os w]: calls [os] on [e] when [w] is what has been logged so far; it returns their results, the
      estimator and the log.  [clf_log a seed os rs], [reg_log a seed os rs]: the lines expected for calls [os] with results [rs] on an
      estimator with settings [a] and random seed [seed]. *)
From Verif Require Import PropFacts HistFacts LogSpec LoggingFacts ToyWide ToyLog.
From stdpp Require Import list.
Local Open Scope Z_scope.

(** C81: the calls do what they do without the log, and the log is the specified one *)
Theorem C81_classifier : forall (R : rnd) g_ok f_ok (S : sch) (A : algo R) (vw : aview A) a p seed os rs e w,
  rnd_ok R g_ok f_ok -> sch_ok S -> tsetlini_algo R A vw -> clf_created a p -> ca_seed a = Some seed -> Forall (clf_op_phys A vw) os ->
  clf_run_logged S A (construct S A p) os [] = Ret (rs, e, w) <->
  clf_run S A (construct S A p) os = Ret (rs, e) /\ w = clf_log a seed os rs.
Proof. intros * HR HS HA Hc Hs Hp. exact (clf_log_spec g_ok f_ok HR S HS A vw HA a p seed os rs e w Hc Hs Hp). Qed.
Print Assumptions C81_classifier.
Theorem C81_regressor : forall (R : rnd) g_ok f_ok (S : sch) (A : algo R) (vw : aview A) a p seed os rs e w,
  rnd_ok R g_ok f_ok -> sch_ok S -> tsetlini_algo R A vw -> reg_created a p -> ra_seed a = Some seed -> Forall (reg_op_phys A vw) os ->
  reg_run_logged S A (construct S A p) os [] = Ret (rs, e, w) <->
  reg_run S A (construct S A p) os = Ret (rs, e) /\ w = reg_log a seed os rs.
Proof. intros * HR HS HA Hc Hs Hp. exact (reg_log_spec g_ok f_ok HR S HS A vw HA a p seed os rs e w Hc Hs Hp). Qed.
Print Assumptions C81_regressor.
(** without verbose nothing is ever logged *)
Theorem C81_classifier_silent : forall (R : rnd) g_ok f_ok (S : sch) (A : algo R) (vw : aview A) a p os rs e w,
  rnd_ok R g_ok f_ok -> sch_ok S -> tsetlini_algo R A vw -> clf_created a p -> ca_verbose a = false -> Forall (clf_op_phys A vw) os ->
  clf_run_logged S A (construct S A p) os [] = Ret (rs, e, w) -> w = [].
Proof. intros * HR HS HA Hc Hv Hp H. exact (clf_silent g_ok f_ok HR S HS A vw HA a p os rs e w Hc Hv Hp H). Qed.
Print Assumptions C81_classifier_silent.
Theorem C81_regressor_silent : forall (R : rnd) g_ok f_ok (S : sch) (A : algo R) (vw : aview A) a p os rs e w,
  rnd_ok R g_ok f_ok -> sch_ok S -> tsetlini_algo R A vw -> reg_created a p -> ra_verbose a = false -> Forall (reg_op_phys A vw) os ->
  reg_run_logged S A (construct S A p) os [] = Ret (rs, e, w) -> w = [].
Proof. intros * HR HS HA Hc Hv Hp H. exact (reg_silent g_ok f_ok HR S HS A vw HA a p os rs e w Hc Hv Hp H). Qed.
Print Assumptions C81_regressor_silent.
(** a rejected fit, a prediction before training, a fit of two epochs, a rejected partial_fit, a partial_fit of one epoch *)
Example C81_example : ca_seed (clf_norm 4 99 toy_wargs) = Some 42 /\ ca_verbose (clf_norm 4 99 toy_wargs) = true /\
  clf_created (clf_norm 4 99 toy_wargs) toy_wparams /\ Forall (clf_op_phys CL (cl_view toy)) log_ops /\
  exists e, clf_run_logged toy_sch CL (construct toy_sch CL toy_wparams) log_ops [] = Ret (log_res, e, log_lines).
Proof. exact log_example. Qed.
Example C81_regressor_example : ra_seed (reg_norm 4 99 toy_wrargs) = Some 42 /\ ra_verbose (reg_norm 4 99 toy_wrargs) = true /\
  reg_created (reg_norm 4 99 toy_wrargs) toy_wrparams /\ Forall (reg_op_phys CL (cl_view toy)) rlog_ops /\
  exists rs e, rs = [RRStatus S_OK; RRStatus S_VALUE_ERROR; RRResps (Right [0; 3; 0; 1]); RRStatus S_OK] /\
    reg_run_logged toy_sch CL (construct toy_sch CL toy_wrparams) rlog_ops [] = Ret (rs, e, rlog_lines).
Proof. exact rlog_example. Qed.
