(** * Property theorems: only included features matter (C63).  Reading guide: PropsPredict. *)
From Verif Require Import Relevance ToyFacts.
From stdpp Require Import list.
Local Open Scope Z_scope.

(** [mentions s j k] : clause [j] includes feature [k] or its negation *)
Theorem C63_mentions_states : forall (R : rnd) (s : tastate (a_pol (classic R))) j k,
  mentions (classic R) (cl_view R) s j k <-> 0 <= nm_cell (ta_matrix s) (2 * j) k \/ 0 <= nm_cell (ta_matrix s) (2 * j + 1) k.
Proof. exact mentions_states. Qed.
Print Assumptions C63_mentions_states.
Theorem C63_mentions_bits : forall (R : rnd) (s : tastate (a_pol (Algo.bitwise R))) j k,
  mentions (Algo.bitwise R) (bw_view R) s j k <-> bm_bit 64 (ta_pol s) (2 * j) k = true \/ bm_bit 64 (ta_pol s) (2 * j + 1) k = true.
Proof. exact mentions_bits. Qed.
Print Assumptions C63_mentions_bits.

(** C63: two samples that agree on the features in the clauses of one label get the same value for that label ... *)
Theorem C63_one_label : forall (R : rnd) g_ok f_ok (S : sch) (A : algo R) (vw : aview A) a p os rs e L nf,
  rnd_ok R g_ok f_ok -> sch_ok S -> tsetlini_algo R A vw -> clf_created a p -> clf_history S A vw p os rs e ->
  clf_dims_of os rs = Some (L, nf) -> let n := Z.to_nat (ca_clauses a / 2) in
  forall x x' l, v_phys vw x -> v_phys vw x' -> v_ok vw nf x -> v_ok vw nf x' -> (l < L)%nat ->
  (forall j k, (j < n)%nat -> (k < nf)%nat -> mentions A vw (e_ta e) (l * n + j) k -> v_x vw x k = v_x vw x' k) ->
  exists v v' e1 e2, clf_decision1 S A e x = Ret (Right v, e1) /\ clf_decision1 S A e x' = Ret (Right v', e2) /\ v !! l = v' !! l.
Proof. intros * HR HS HA Hc Hh Hd. exact (clf_label_relevant g_ok f_ok HR S HS A vw HA a p os rs e Hc Hh L nf Hd). Qed.
Print Assumptions C63_one_label.
(** ... and two samples that agree on all features in clauses get the same decision values and the same label. *)
Theorem C63_classifier : forall (R : rnd) g_ok f_ok (S : sch) (A : algo R) (vw : aview A) a p os rs e L nf,
  rnd_ok R g_ok f_ok -> sch_ok S -> tsetlini_algo R A vw -> clf_created a p -> clf_history S A vw p os rs e ->
  clf_dims_of os rs = Some (L, nf) ->
  forall x x', v_phys vw x -> v_phys vw x' -> v_ok vw nf x -> v_ok vw nf x' ->
  (forall j k, (j < L * Z.to_nat (ca_clauses a / 2))%nat -> (k < nf)%nat -> mentions A vw (e_ta e) j k -> v_x vw x k = v_x vw x' k) ->
  exists v y e1 e2 e3 e4, clf_decision1 S A e x = Ret (Right v, e1) /\ clf_decision1 S A e x' = Ret (Right v, e2) /\
    clf_predict1 S A e x = Ret (Right y, e3) /\ clf_predict1 S A e x' = Ret (Right y, e4).
Proof. intros * HR HS HA Hc Hh Hd. exact (clf_relevant g_ok f_ok HR S HS A vw HA a p os rs e Hc Hh L nf Hd). Qed.
Print Assumptions C63_classifier.
Theorem C63_regressor : forall (R : rnd) g_ok f_ok (S : sch) (A : algo R) (vw : aview A) a p os rs e nf,
  rnd_ok R g_ok f_ok -> sch_ok S -> tsetlini_algo R A vw -> reg_created a p -> reg_history S A vw p os rs e ->
  reg_dims_of os rs = Some nf ->
  forall x x', v_phys vw x -> v_phys vw x' -> v_ok vw nf x -> v_ok vw nf x' ->
  (forall j k, (j < Z.to_nat (ra_clauses a / 2))%nat -> (k < nf)%nat -> mentions A vw (e_ta e) j k -> v_x vw x k = v_x vw x' k) ->
  exists v e1 e2, reg_predict1 S A e x = Ret (Right v, e1) /\ reg_predict1 S A e x' = Ret (Right v, e2).
Proof. intros * HR HS HA Hc Hh Hd. exact (reg_relevant g_ok f_ok HR S HS A vw HA a p os rs e Hc Hh nf Hd). Qed.
Print Assumptions C63_regressor.
(** Without any literal the answers do not depend on the sample at all: zero votes, label 0, response 0. *)
Theorem C63_classifier_without_literals : forall (R : rnd) g_ok f_ok (S : sch) (A : algo R) (vw : aview A) a p os rs e L nf,
  rnd_ok R g_ok f_ok -> sch_ok S -> tsetlini_algo R A vw -> clf_created a p -> clf_history S A vw p os rs e ->
  clf_dims_of os rs = Some (L, nf) ->
  forall x, v_phys vw x -> v_ok vw nf x ->
  (forall j k, (j < L * Z.to_nat (ca_clauses a / 2))%nat -> (k < nf)%nat -> ~ mentions A vw (e_ta e) j k) ->
  exists e1 e2, clf_decision1 S A e x = Ret (Right (replicate L 0), e1) /\ clf_predict1 S A e x = Ret (Right 0, e2).
Proof. intros * HR HS HA Hc Hh Hd. exact (clf_empty g_ok f_ok HR S HS A vw HA a p os rs e Hc Hh L nf Hd). Qed.
Print Assumptions C63_classifier_without_literals.
Theorem C63_regressor_without_literals : forall (R : rnd) g_ok f_ok (S : sch) (A : algo R) (vw : aview A) a p os rs e nf,
  rnd_ok R g_ok f_ok -> sch_ok S -> tsetlini_algo R A vw -> reg_created a p -> reg_history S A vw p os rs e ->
  reg_dims_of os rs = Some nf ->
  forall x, v_phys vw x -> v_ok vw nf x ->
  (forall j k, (j < Z.to_nat (ra_clauses a / 2))%nat -> (k < nf)%nat -> ~ mentions A vw (e_ta e) j k) ->
  exists e1, reg_predict1 S A e x = Ret (Right 0, e1).
Proof. intros * HR HS HA Hc Hh Hd. exact (reg_empty g_ok f_ok HR S HS A vw HA a p os rs e Hc Hh nf Hd). Qed.
Print Assumptions C63_regressor_without_literals.

(** after 20 epochs on the XOR of two of three features (n = 2 clauses per label, 2 labels), feature 2 is in no clause *)
Example C63_example_classifier : exists e, clf_history toy_sch (classic toy) (cl_view toy) toy_clf_params [CFit (classic toy) toy_X toy_y 0 20] [CRStatus S_OK] e /\
  (forall j, (j < 4)%nat -> ~ mentions (classic toy) (cl_view toy) (e_ta e) j 2) /\ (exists j k, mentions (classic toy) (cl_view toy) (e_ta e) j k).
Proof. exact toy_xor. Qed.
(** feature 0 matters to label 1 only *)
Example C63_example_label : exists e, clf_history toy_sch (classic toy) (cl_view toy) toy_clf_params (toy_clf_ops (classic toy) toy_X) (toy_clf_res [0; 1; 0; 0] [0; 1; 1; 0]) e /\
  (forall j, (j < 2)%nat -> ~ mentions (classic toy) (cl_view toy) (e_ta e) (0 * 2 + j) 0) /\ mentions (classic toy) (cl_view toy) (e_ta e) 2 0.
Proof. exact toy_label0. Qed.
Example C63_example_regressor : exists e, reg_history toy_sch (classic toy) (cl_view toy) toy_reg_params [RFit (classic toy) toy_X toy_ry 1] [RRStatus S_OK] e /\
  forall j, (j < 2)%nat -> ~ mentions (classic toy) (cl_view toy) (e_ta e) j 2.
Proof. exact toy_reg_unmentioned. Qed.
(** contradictory training data can empty all clauses *)
Example C63_example_no_literals : 
  (exists e, clf_history toy_sch (classic toy) (cl_view toy) toy_clf_params [CFit (classic toy) [[1]; [1]] [0; 1] 0 1] [CRStatus S_OK] e /\
     forall j, (j < 4)%nat -> ~ mentions (classic toy) (cl_view toy) (e_ta e) j 0) /\
  (exists e, reg_history toy_sch (classic toy) (cl_view toy) toy_reg_params [RFit (classic toy) [[1]; [0]] [5; 5] 5] [RRStatus S_OK] e /\
     forall j, (j < 2)%nat -> ~ mentions (classic toy) (cl_view toy) (e_ta e) j 0).
Proof. exact (conj toy_clf_empty toy_reg_empty). Qed.
