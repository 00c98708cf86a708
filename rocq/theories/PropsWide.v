(** * C70, C71: settings that do not influence what is learnt. *)
From Verif Require Import WideProps ToyWide.
From stdpp Require Import list.
Local Open Scope Z_scope.

(** C70: two classifiers whose arguments agree but for counting_type, n_jobs, clause_output_tile_size and verbose, given the same
    calls (under any two schedules of their parallel loops): whenever both sequences of calls complete, all results agree, and so do
    automata, weights and generators.  (Completion is the subject of C47; a matrix of 32-bit cells may fail to fit where one of
    8-bit cells does, hence "both".)  [trains_well] excludes the bitwise estimators with number_of_states = 1, where C14 fails. *)
Theorem C70_classifier_storage_is_irrelevant : forall (R : rnd) g_ok f_ok (A : algo R) (vw : aview A) S1 S2 a1 a2 p1 p2 os rs1 rs2 e1 e2,
  rnd_ok R g_ok f_ok -> sch_ok S1 -> sch_ok S2 -> trains_well R (ca_states a1) A vw ->
  clf_created a1 p1 -> clf_created a2 p2 -> clf_same_but_storage a1 a2 ->
  clf_history S1 A vw p1 os rs1 e1 -> clf_history S2 A vw p2 os rs2 e2 -> evaluates_ok S1 A vw None (construct S1 A p1) os ->
  rs2 = rs1 /\ (forall L nf, clf_dims_of os rs1 = Some (L, nf) ->
    same_automata vw (L * Z.to_nat (ca_clauses a1)) nf (e_ta e1) (e_ta e2) /\ ta_weights (e_ta e2) = ta_weights (e_ta e1) /\
    e_igen e2 = e_igen e1 /\ e_fgen e2 = e_fgen e1).
Proof. intros * HR H1 H2 Hw Hc1 Hc2 Hs Hh1 Hh2 He. exact (clf_storage_free g_ok f_ok HR S1 H1 S2 H2 A vw a1 a2 p1 p2 os rs1 rs2 e1 e2 Hw Hc1 Hc2 Hs Hh1 Hh2 He). Qed.
Print Assumptions C70_classifier_storage_is_irrelevant.
Theorem C70_regressor_storage_is_irrelevant : forall (R : rnd) g_ok f_ok (A : algo R) (vw : aview A) S1 S2 a1 a2 p1 p2 os rs1 rs2 e1 e2,
  rnd_ok R g_ok f_ok -> sch_ok S1 -> sch_ok S2 -> trains_well R (ra_states a1) A vw ->
  reg_created a1 p1 -> reg_created a2 p2 -> reg_same_but_storage a1 a2 ->
  reg_history S1 A vw p1 os rs1 e1 -> reg_history S2 A vw p2 os rs2 e2 ->
  rs2 = rs1 /\ (forall nf, reg_dims_of os rs1 = Some nf ->
    same_automata vw (Z.to_nat (ra_clauses a1)) nf (e_ta e1) (e_ta e2) /\ ta_weights (e_ta e2) = ta_weights (e_ta e1) /\ e_igen e2 = e_igen e1).
Proof. intros * HR H1 H2 Hw Hc1 Hc2 Hs Hh1 Hh2. exact (reg_storage_free g_ok f_ok HR S1 H1 S2 H2 A vw a1 a2 p1 p2 os rs1 rs2 e1 e2 Hw Hc1 Hc2 Hs Hh1 Hh2). Qed.
Print Assumptions C70_regressor_storage_is_irrelevant.
(** a bitwise classifier with 8-bit and one with 32-bit automata; a classic regressor with 8-bit and one with 16-bit automata *)
Example C70_example : exists a2 p2 e1 e2, clf_created toy_a toy_clf_params /\ clf_created a2 p2 /\ clf_same_but_storage toy_a a2 /\
  ca_counting a2 = "int32"%string /\ ca_n_jobs a2 = 7 /\ ca_verbose a2 = true /\
  clf_history toy_sch BW (bw_view toy) toy_clf_params (toy_clf_ops BW toy_B) (toy_clf_res [0; 1; 1; 0] [0; 1; 1; 0]) e1 /\
  clf_history toy_sch2 BW (bw_view toy) p2 (toy_clf_ops BW toy_B) (toy_clf_res [0; 1; 1; 0] [0; 1; 1; 0]) e2 /\
  nm_w (ta_matrix (e_ta e1)) = 8 /\ nm_w (ta_matrix (e_ta e2)) = 32 /\ ta_weights (e_ta e1) = [1; 1; 4; 0].
Proof. exact toy_storage. Qed.
Example C70_regressor_example : exists a2 p2 e1 e2, reg_created toy_ra toy_reg_params /\ reg_created a2 p2 /\ reg_same_but_storage toy_ra a2 /\
  ra_counting a2 = "int16"%string /\
  reg_history toy_sch CL (cl_view toy) toy_reg_params (toy_reg_ops CL toy_X) (toy_reg_res [0; 2; 0; 3] [0; 2; 0; 4]) e1 /\
  reg_history toy_sch2 CL (cl_view toy) p2 (toy_reg_ops CL toy_X) (toy_reg_res [0; 2; 0; 3] [0; 2; 0; 4]) e2 /\
  nm_w (ta_matrix (e_ta e1)) = 8 /\ nm_w (ta_matrix (e_ta e2)) = 16 /\ ta_weights (e_ta e1) = [1; 3].
Proof. exact toy_rstorage. Qed.

(** C71: weights that cannot grow are no weights: if of each of two estimators it holds that it is unweighted (whatever its
    max_weight) or its max_weight is 1, and they agree in everything else but storage, the same calls give the same results and
    leave the same automata and generators. *)
Theorem C71_classifier_trivial_weights : forall (R : rnd) g_ok f_ok (A : algo R) (vw : aview A) S1 S2 a1 a2 p1 p2 os rs1 rs2 e1 e2,
  rnd_ok R g_ok f_ok -> sch_ok S1 -> sch_ok S2 -> trains_well R (ca_states a1) A vw ->
  clf_created a1 p1 -> clf_created a2 p2 -> clf_same_but_weighting a1 a2 ->
  weights_trivial (ca_weighted a1) (ca_max_weight a1) -> weights_trivial (ca_weighted a2) (ca_max_weight a2) ->
  clf_history S1 A vw p1 os rs1 e1 -> clf_history S2 A vw p2 os rs2 e2 -> evaluates_ok S1 A vw None (construct S1 A p1) os ->
  rs2 = rs1 /\ (forall L nf, clf_dims_of os rs1 = Some (L, nf) ->
    same_automata vw (L * Z.to_nat (ca_clauses a1)) nf (e_ta e1) (e_ta e2) /\ e_igen e2 = e_igen e1 /\ e_fgen e2 = e_fgen e1).
Proof. intros * HR H1 H2 Hw Hc1 Hc2 Hs T1 T2 Hh1 Hh2 He. exact (clf_trivial_weights g_ok f_ok HR S1 H1 S2 H2 A vw a1 a2 p1 p2 os rs1 rs2 e1 e2 Hw Hc1 Hc2 Hs T1 T2 Hh1 Hh2 He). Qed.
Print Assumptions C71_classifier_trivial_weights.
Theorem C71_regressor_trivial_weights : forall (R : rnd) g_ok f_ok (A : algo R) (vw : aview A) S1 S2 a1 a2 p1 p2 os rs1 rs2 e1 e2,
  rnd_ok R g_ok f_ok -> sch_ok S1 -> sch_ok S2 -> trains_well R (ra_states a1) A vw ->
  reg_created a1 p1 -> reg_created a2 p2 -> reg_same_but_weighting a1 a2 ->
  weights_trivial (ra_weighted a1) (ra_max_weight a1) -> weights_trivial (ra_weighted a2) (ra_max_weight a2) ->
  reg_history S1 A vw p1 os rs1 e1 -> reg_history S2 A vw p2 os rs2 e2 ->
  rs2 = rs1 /\ (forall nf, reg_dims_of os rs1 = Some nf ->
    same_automata vw (Z.to_nat (ra_clauses a1)) nf (e_ta e1) (e_ta e2) /\ e_igen e2 = e_igen e1).
Proof. intros * HR H1 H2 Hw Hc1 Hc2 Hs T1 T2 Hh1 Hh2. exact (reg_trivial_weights g_ok f_ok HR S1 H1 S2 H2 A vw a1 a2 p1 p2 os rs1 rs2 e1 e2 Hw Hc1 Hc2 Hs T1 T2 Hh1 Hh2). Qed.
Print Assumptions C71_regressor_trivial_weights.
Example C71_example : exists a1 p1 a2 p2 e1 e2, clf_created a1 p1 /\ clf_created a2 p2 /\ clf_same_but_weighting a1 a2 /\
  ca_weighted a1 = false /\ ca_max_weight a1 = 7 /\ ca_weighted a2 = true /\ ca_max_weight a2 = 1 /\
  clf_history toy_sch CL (cl_view toy) p1 (toy_clf_ops CL toy_X) (toy_clf_res [0; 1; 0; 0] [0; 1; 0; 0]) e1 /\
  clf_history toy_sch CL (cl_view toy) p2 (toy_clf_ops CL toy_X) (toy_clf_res [0; 1; 0; 0] [0; 1; 0; 0]) e2 /\
  ta_weights (e_ta e1) = [] /\ ta_weights (e_ta e2) = [0; 0; 0; 0].
Proof. exact toy_trivial. Qed.
Example C71_regressor_example : exists a1 p1 a2 p2 e1 e2, reg_created a1 p1 /\ reg_created a2 p2 /\ reg_same_but_weighting a1 a2 /\
  ra_weighted a1 = false /\ ra_max_weight a1 = 7 /\ ra_weighted a2 = true /\ ra_max_weight a2 = 1 /\
  reg_history toy_sch BW (bw_view toy) p1 (toy_reg_ops BW toy_B) (toy_reg_res [1; 1; 1; 0] [1; 1; 1; 1]) e1 /\
  reg_history toy_sch BW (bw_view toy) p2 (toy_reg_ops BW toy_B) (toy_reg_res [1; 1; 1; 0] [1; 1; 1; 1]) e2 /\
  ta_weights (e_ta e1) = [] /\ ta_weights (e_ta e2) = [0; 0].
Proof. exact toy_rtrivial. Qed.
