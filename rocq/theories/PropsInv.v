(** * Invariants of every reachable estimator: C12, C13, C15, C45.  Reading guide: see PropsPredict.v. *)
From Verif Require Import ToyTrain.
From stdpp Require Import list.
Local Open Scope Z_scope.

(** C12: after any calls every automaton is within [-number_of_states, number_of_states - 1], and that value is the one stored in
    the matrix's integer cells (it is within the range of the cell type). *)
Theorem C12_classic_classifier_states_in_range : forall (R : rnd) g_ok f_ok (S : sch) a p os rs e,
  rnd_ok R g_ok f_ok -> sch_ok S -> clf_created a p -> clf_history S (classic R) (cl_view R) p os rs e ->
  forall r c, (r < nm_rows (ta_matrix (e_ta e)))%nat -> (c < nm_cols (ta_matrix (e_ta e)))%nat ->
    - ca_states a <= nm_cell (ta_matrix (e_ta e)) r c <= ca_states a - 1 /\
    - 2 ^ (nm_w (ta_matrix (e_ta e)) - 1) <= nm_cell (ta_matrix (e_ta e)) r c < 2 ^ (nm_w (ta_matrix (e_ta e)) - 1).
Proof. intros * HR HS Hc Hh. exact (clf_classic_range g_ok f_ok HR S HS a p os rs e Hc Hh). Qed.
Print Assumptions C12_classic_classifier_states_in_range.
Theorem C12_classic_regressor_states_in_range : forall (R : rnd) g_ok f_ok (S : sch) a p os rs e,
  rnd_ok R g_ok f_ok -> sch_ok S -> reg_created a p -> reg_history S (classic R) (cl_view R) p os rs e ->
  forall r c, (r < nm_rows (ta_matrix (e_ta e)))%nat -> (c < nm_cols (ta_matrix (e_ta e)))%nat ->
    - ra_states a <= nm_cell (ta_matrix (e_ta e)) r c <= ra_states a - 1 /\
    - 2 ^ (nm_w (ta_matrix (e_ta e)) - 1) <= nm_cell (ta_matrix (e_ta e)) r c < 2 ^ (nm_w (ta_matrix (e_ta e)) - 1).
Proof. intros * HR HS Hc Hh. exact (reg_classic_range g_ok f_ok HR S HS a p os rs e Hc Hh). Qed.
Print Assumptions C12_classic_regressor_states_in_range.
(** C12 for the bitwise estimators, which need number_of_states >= 2 (see C14 for 1). *)
Theorem C12_bitwise_classifier_states_in_range : forall (R : rnd) g_ok f_ok (S : sch) a p os rs e,
  rnd_ok R g_ok f_ok -> sch_ok S -> clf_created a p -> clf_history S (Algo.bitwise R) (bw_view R) p os rs e -> 2 <= ca_states a ->
  forall r c, (r < nm_rows (ta_matrix (e_ta e)))%nat -> (c < nm_cols (ta_matrix (e_ta e)))%nat ->
    - ca_states a <= nm_cell (ta_matrix (e_ta e)) r c <= ca_states a - 1 /\
    - 2 ^ (nm_w (ta_matrix (e_ta e)) - 1) <= nm_cell (ta_matrix (e_ta e)) r c < 2 ^ (nm_w (ta_matrix (e_ta e)) - 1).
Proof. intros * HR HS Hc Hh HN. exact (proj1 (clf_bitwise_range g_ok f_ok HR S HS a p os rs e Hc HN Hh)). Qed.
Print Assumptions C12_bitwise_classifier_states_in_range.
Theorem C12_bitwise_regressor_states_in_range : forall (R : rnd) g_ok f_ok (S : sch) a p os rs e,
  rnd_ok R g_ok f_ok -> sch_ok S -> reg_created a p -> reg_history S (Algo.bitwise R) (bw_view R) p os rs e -> 2 <= ra_states a ->
  forall r c, (r < nm_rows (ta_matrix (e_ta e)))%nat -> (c < nm_cols (ta_matrix (e_ta e)))%nat ->
    - ra_states a <= nm_cell (ta_matrix (e_ta e)) r c <= ra_states a - 1 /\
    - 2 ^ (nm_w (ta_matrix (e_ta e)) - 1) <= nm_cell (ta_matrix (e_ta e)) r c < 2 ^ (nm_w (ta_matrix (e_ta e)) - 1).
Proof. intros * HR HS Hc Hh HN. exact (proj1 (reg_bitwise_range g_ok f_ok HR S HS a p os rs e Hc HN Hh)). Qed.
Print Assumptions C12_bitwise_regressor_states_in_range.
(** the matrix whose cells the above speaks about has one row per literal kind of a clause and one column per feature *)
Theorem C12_classifier_shape : forall (R : rnd) g_ok f_ok (S : sch) (A : algo R) (vw : aview A) a p os rs e,
  rnd_ok R g_ok f_ok -> sch_ok S -> tsetlini_algo R A vw -> clf_created a p -> clf_history S A vw p os rs e ->
  forall L nf, clf_dims_of os rs = Some (L, nf) ->
    Z.of_nat (nm_rows (ta_matrix (e_ta e))) = Z.of_nat L * ca_clauses a /\ nm_cols (ta_matrix (e_ta e)) = nf.
Proof. intros * HR HS HA Hc Hh L nf Hd. exact (proj2 (clf_shape g_ok f_ok HR S HS A vw HA a p os rs e L nf Hc Hh Hd)). Qed.
Print Assumptions C12_classifier_shape.
Theorem C12_regressor_shape : forall (R : rnd) g_ok f_ok (S : sch) (A : algo R) (vw : aview A) a p os rs e,
  rnd_ok R g_ok f_ok -> sch_ok S -> tsetlini_algo R A vw -> reg_created a p -> reg_history S A vw p os rs e ->
  forall nf, reg_dims_of os rs = Some nf ->
    Z.of_nat (nm_rows (ta_matrix (e_ta e))) = ra_clauses a /\ nm_cols (ta_matrix (e_ta e)) = nf.
Proof. intros * HR HS HA Hc Hh nf Hd. exact (proj2 (reg_shape g_ok f_ok HR S HS A vw HA a p os rs e nf Hc Hh Hd)). Qed.
Print Assumptions C12_regressor_shape.
(** a trained toy estimator whose automata moved both ways *)
Example C12_example : exists e,
  clf_history toy_sch CL (cl_view toy) toy_clf_params (toy_clf_ops CL toy_X) (toy_clf_res [0; 1; 0; 0] [0; 1; 1; 0]) e /\
  clf_created toy_a toy_clf_params /\
  (exists r c, (r < nm_rows (ta_matrix (e_ta e)))%nat /\ (c < nm_cols (ta_matrix (e_ta e)))%nat /\ nm_cell (ta_matrix (e_ta e)) r c = 4) /\
  (exists r c, (r < nm_rows (ta_matrix (e_ta e)))%nat /\ (c < nm_cols (ta_matrix (e_ta e)))%nat /\ nm_cell (ta_matrix (e_ta e)) r c = -7).
Proof. exact toy_both_ends. Qed.

(** C13: polarity bits are the signs of the automata and bits past the last feature are clear. *)
Theorem C13_classifier_polarity_is_sign : forall (R : rnd) g_ok f_ok (S : sch) a p os rs e,
  rnd_ok R g_ok f_ok -> sch_ok S -> clf_created a p -> clf_history S (Algo.bitwise R) (bw_view R) p os rs e -> 2 <= ca_states a ->
  let m := ta_matrix (e_ta e) in let q := ta_pol (e_ta e) in
  bm_rows q = nm_rows m /\ bm_cols q = nm_cols m /\
  (forall r c, (r < nm_rows m)%nat -> (c < nm_cols m)%nat -> (bm_bit 64 q r c = true <-> 0 <= nm_cell m r c)) /\
  (forall r c, (r < nm_rows m)%nat -> (nm_cols m <= c < bm_row_blocks q * 64)%nat -> bm_bit 64 q r c = false).
Proof. intros * HR HS Hc Hh HN. exact (synced_iff _ _ (proj2 (clf_bitwise_range g_ok f_ok HR S HS a p os rs e Hc HN Hh))). Qed.
Print Assumptions C13_classifier_polarity_is_sign.
Theorem C13_regressor_polarity_is_sign : forall (R : rnd) g_ok f_ok (S : sch) a p os rs e,
  rnd_ok R g_ok f_ok -> sch_ok S -> reg_created a p -> reg_history S (Algo.bitwise R) (bw_view R) p os rs e -> 2 <= ra_states a ->
  let m := ta_matrix (e_ta e) in let q := ta_pol (e_ta e) in
  bm_rows q = nm_rows m /\ bm_cols q = nm_cols m /\
  (forall r c, (r < nm_rows m)%nat -> (c < nm_cols m)%nat -> (bm_bit 64 q r c = true <-> 0 <= nm_cell m r c)) /\
  (forall r c, (r < nm_rows m)%nat -> (nm_cols m <= c < bm_row_blocks q * 64)%nat -> bm_bit 64 q r c = false).
Proof. intros * HR HS Hc Hh HN. exact (synced_iff _ _ (proj2 (reg_bitwise_range g_ok f_ok HR S HS a p os rs e Hc HN Hh))). Qed.
Print Assumptions C13_regressor_polarity_is_sign.
Example C13_example : exists e,
  clf_history toy_sch BW (bw_view toy) toy_clf_params (toy_clf_ops BW toy_B) (toy_clf_res [0; 1; 1; 0] [0; 1; 1; 0]) e /\
  2 <= ca_states toy_a /\ nm_rows (ta_matrix (e_ta e)) = 8%nat /\ nm_cols (ta_matrix (e_ta e)) = 3%nat /\
  (exists r c, (r < 8)%nat /\ (c < 3)%nat /\ bm_bit 64 (ta_pol (e_ta e)) r c = true) /\
  (exists r c, (r < 8)%nat /\ (c < 3)%nat /\ bm_bit 64 (ta_pol (e_ta e)) r c = false).
Proof. exact toy_signs. Qed.

(** C15: weights.  (A clause counts 1 + w votes.) *)
Theorem C15_classifier_weights_in_range : forall (R : rnd) g_ok f_ok (S : sch) (A : algo R) (vw : aview A) a p os rs e,
  rnd_ok R g_ok f_ok -> sch_ok S -> tsetlini_algo R A vw -> clf_created a p -> clf_history S A vw p os rs e ->
  if ca_weighted a then
    Forall (fun w => 0 <= w /\ 1 + w <= ca_max_weight a) (ta_weights (e_ta e)) /\
    (forall L nf, clf_dims_of os rs = Some (L, nf) -> Z.of_nat (length (ta_weights (e_ta e))) = Z.of_nat L * (ca_clauses a / 2))
  else ta_weights (e_ta e) = [].
Proof. intros * HR HS HA Hc Hh. exact (clf_weights g_ok f_ok HR S HS A vw HA a p os rs e Hc Hh). Qed.
Print Assumptions C15_classifier_weights_in_range.
Theorem C15_regressor_weights_in_range : forall (R : rnd) g_ok f_ok (S : sch) (A : algo R) (vw : aview A) a p os rs e,
  rnd_ok R g_ok f_ok -> sch_ok S -> tsetlini_algo R A vw -> reg_created a p -> reg_history S A vw p os rs e ->
  if ra_weighted a then
    Forall (fun w => 0 <= w /\ 1 + w <= ra_max_weight a) (ta_weights (e_ta e)) /\
    (forall nf, reg_dims_of os rs = Some nf -> Z.of_nat (length (ta_weights (e_ta e))) = ra_clauses a / 2)
  else ta_weights (e_ta e) = [].
Proof. intros * HR HS HA Hc Hh. exact (reg_weights g_ok f_ok HR S HS A vw HA a p os rs e Hc Hh). Qed.
Print Assumptions C15_regressor_weights_in_range.
Example C15_example : exists e,
  clf_history toy_sch CL (cl_view toy) toy_clf_params (toy_clf_ops CL toy_X) (toy_clf_res [0; 1; 0; 0] [0; 1; 1; 0]) e /\
  ca_weighted toy_a = true /\ 1 < ca_max_weight toy_a /\ ta_weights (e_ta e) = [2; 1; 4; 0].
Proof. exact toy_weights. Qed.

(** C45: the cells have the narrowest of the three widths that can represent number_of_states and is not narrower than the
    requested type ("auto" asks for nothing). *)
Theorem C45_classifier_counting_type : forall (R : rnd) g_ok f_ok (S : sch) (A : algo R) (vw : aview A) a p os rs e,
  rnd_ok R g_ok f_ok -> sch_ok S -> tsetlini_algo R A vw -> clf_created a p -> clf_history S A vw p os rs e ->
  forall L nf, clf_dims_of os rs = Some (L, nf) -> narrowest (ca_counting a) (ca_states a) (nm_w (ta_matrix (e_ta e))).
Proof. intros * HR HS HA Hc Hh L nf Hd. exact (proj1 (clf_width g_ok f_ok HR S HS A vw HA a p os rs e L nf Hc Hh Hd)). Qed.
Print Assumptions C45_classifier_counting_type.
Theorem C45_regressor_counting_type : forall (R : rnd) g_ok f_ok (S : sch) (A : algo R) (vw : aview A) a p os rs e,
  rnd_ok R g_ok f_ok -> sch_ok S -> tsetlini_algo R A vw -> reg_created a p -> reg_history S A vw p os rs e ->
  forall nf, reg_dims_of os rs = Some nf -> narrowest (ra_counting a) (ra_states a) (nm_w (ta_matrix (e_ta e))).
Proof. intros * HR HS HA Hc Hh nf Hd. exact (proj1 (reg_width g_ok f_ok HR S HS A vw HA a p os rs e nf Hc Hh Hd)). Qed.
Print Assumptions C45_regressor_counting_type.
Example C45_example : narrowest "auto" 127 8 /\ narrowest "auto" 128 16 /\ narrowest "int8" 32768 32 /\ narrowest "int16" 3 16.
Proof. exact narrowest_examples. Qed.
