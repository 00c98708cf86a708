(** * Property theorems about prediction: C01 - C09.
    Reading guide.  [rnd_ok R g_ok f_ok] : any source of random numbers with 32-bit integers and floats in (0, 1].
    [sch_ok S] : any schedule of the OpenMP loops (each iteration runs exactly once, in any order).
    [tsetlini_algo R A vw] : A is the classic or the bitwise algorithm.  [clf_created a p] : p is a parameter set made by a
    factory from arguments a.  [clf_history S A vw p os rs e] : an estimator constructed from p was given the calls os, which
    returned rs and left e.  [CRStatus S_OK ∈ rs] : some training call has succeeded.  [clf_dims_of os rs = Some (L, nf)] : the
    last successful fit fixed L labels and nf features.  [v_phys] : the argument is a constructible C++ object. *)
From Verif Require Import ToyFacts.
From stdpp Require Import list.
Local Open Scope Z_scope.

(** C01: for arbitrary automata (any well formed matrix of 2n rows), any 0/1 sample, any tile size, thread count and schedule, and
    whatever was in the output buffer, the prediction pass outputs 1 exactly for clauses all of whose included literals hold and which
    include some literal, and the training pass, over any range of clauses, exactly for those all of whose included literals hold. *)
Theorem C01_classic_clause_semantics : forall (R : rnd) (S : sch), sch_ok S ->
  forall m ws pol nf n x c n_jobs tile,
  nm_sized m -> nm_rows m = (2 * n)%nat -> nm_cols m = nf -> dense_ok nf x -> length (ca_out c) = n ->
  (exists c', calc_clause_output_pruned S (classic R) x c (Z.of_nat n) (TA m ws pol) n_jobs tile = Ret c' /\
     forall j, (j < n)%nat -> outputs (ca_out c') j (satisfied_by_states m nf j x /\ nonempty_states m nf j)) /\
  (forall b e, (e <= n)%nat -> exists c', calc_clause_output S (classic R) x c (Z.of_nat b) (Z.of_nat e) (TA m ws pol) n_jobs tile = Ret c' /\
     forall j, (b <= j < e)%nat -> outputs (ca_out c') j (satisfied_by_states m nf j x)).
Proof. exact classic_outputs. Qed.
Print Assumptions C01_classic_clause_semantics.

(** C02: the same for the 64-bit block evaluation of the bitwise algorithm, on polarity bits. *)
Theorem C02_bitwise_clause_semantics : forall (R : rnd) (S : sch), sch_ok S ->
  forall m ws pol nf n x c n_jobs tile,
  bm_wf 64 pol -> bm_clear_padding 64 pol -> bm_rows pol = (2 * n)%nat -> bm_cols pol = nf -> bits_ok nf x -> length (ca_out c) = n ->
  (exists c', calc_clause_output_pruned S (Algo.bitwise R) x c (Z.of_nat n) (TA m ws pol) n_jobs tile = Ret c' /\
     forall j, (j < n)%nat -> outputs (ca_out c') j (satisfied_by_bits pol nf j x /\ nonempty_bits pol nf j)) /\
  (forall b e, (e <= n)%nat -> exists c', calc_clause_output S (Algo.bitwise R) x c (Z.of_nat b) (Z.of_nat e) (TA m ws pol) n_jobs tile = Ret c' /\
     forall j, (b <= j < e)%nat -> outputs (ca_out c') j (satisfied_by_bits pol nf j x)).
Proof. exact bitwise_outputs. Qed.
Print Assumptions C02_bitwise_clause_semantics.

(** C01/C02 for every estimator a caller can reach: the output of clause [j] is [fires_pruned] in prediction ... *)
Theorem C01_C02_clause_outputs_of_fitted : forall (R : rnd) g_ok f_ok (S : sch) (A : algo R) (vw : aview A) a p os rs e,
  rnd_ok R g_ok f_ok -> sch_ok S -> tsetlini_algo R A vw -> clf_created a p -> clf_history S A vw p os rs e ->
  forall L nf x c n_jobs tile, clf_dims_of os rs = Some (L, nf) -> v_ok vw nf x -> tile_known tile ->
  length (ca_out c) = (L * clf_opl a)%nat ->
  exists c', calc_clause_output_pruned S A x c (Z.of_nat (L * clf_opl a)) (e_ta e) n_jobs tile = Ret c' /\
    forall j, (j < L * clf_opl a)%nat -> ca_out c' !! j = Some (b2z (fires_pruned vw nf (e_ta e) x j)).
Proof. intros * HR HS HA Hc Hh * Hd Hx Ht Hl. exact (proj1 (clf_clause_outputs g_ok f_ok HR S HS A vw HA a p os rs e L nf x c n_jobs tile Hc Hh Hd Hx Ht Hl)). Qed.
Print Assumptions C01_C02_clause_outputs_of_fitted.
(** ... which is the conjunction of the included literals of a non-empty clause. *)
Theorem C01_fires_means : forall (R : rnd) nf (s : tastate (a_pol (classic R))) x j, dense_ok nf x ->
  fires_pruned (cl_view R) nf s x j = true <-> satisfied_by_states (ta_matrix s) nf j x /\ nonempty_states (ta_matrix s) nf j.
Proof. exact fires_pruned_states. Qed.
Print Assumptions C01_fires_means.
Theorem C02_fires_means : forall (R : rnd) nf (s : tastate (a_pol (Algo.bitwise R))) x j,
  fires_pruned (bw_view R) nf s x j = true <-> satisfied_by_bits (ta_pol s) nf j x /\ nonempty_bits (ta_pol s) nf j.
Proof. exact fires_pruned_bits. Qed.
Print Assumptions C02_fires_means.
(** a two-clause matrix over three features: clause 0 is x0 and not x1, clause 1 is empty *)
Example C01_example : nm_sized toy_matrix /\ nm_rows toy_matrix = 4%nat /\ dense_ok 3 [1; 0; 1] /\
  satisfied_by_states toy_matrix 3 0 [1; 0; 1] /\ nonempty_states toy_matrix 3 0 /\
  satisfied_by_states toy_matrix 3 1 [1; 0; 1] /\ ~ nonempty_states toy_matrix 3 1 /\ ~ satisfied_by_states toy_matrix 3 0 [1; 1; 1].
Proof. exact toy_matrix_facts. Qed.
Example C02_example : exists e,
  clf_history toy_sch (Algo.bitwise toy) (bw_view toy) toy_clf_params (toy_clf_ops (Algo.bitwise toy) toy_B) (toy_clf_res [0; 1; 1; 0] [0; 1; 1; 0]) e /\
  bm_wf 64 (ta_pol (e_ta e)) /\ bm_clear_padding 64 (ta_pol (e_ta e)) /\ bm_rows (ta_pol (e_ta e)) = 8%nat /\ bm_cols (ta_pol (e_ta e)) = 3%nat /\ Forall (bits_ok 3) toy_B.
Proof. exact toy_bitwise_polarity. Qed.

(** C03: a classic and a bitwise estimator that hold the same model answer the same on the same sample. *)
Theorem C03_classifiers_agree : forall (R : rnd) g_ok f_ok, rnd_ok R g_ok f_ok -> forall S1, sch_ok S1 -> forall S2, sch_ok S2 ->
  forall a1 p1 os1 rs1 e1 a2 p2 os2 rs2 e2 L nf x b,
  clf_created a1 p1 -> clf_created a2 p2 -> ca_clauses a2 = ca_clauses a1 -> ca_threshold a2 = ca_threshold a1 ->
  clf_history S1 (classic R) (cl_view R) p1 os1 rs1 e1 -> clf_history S2 (Algo.bitwise R) (bw_view R) p2 os2 rs2 e2 ->
  clf_dims_of os1 rs1 = Some (L, nf) -> clf_dims_of os2 rs2 = Some (L, nf) ->
  same_model (L * Z.to_nat (ca_clauses a1 / 2)) nf (e_ta e1) (e_ta e2) -> dense_ok nf x -> bits_ok nf b -> same_sample nf x b ->
  exists v y e1' e2' e1'' e2'', clf_decision1 S1 (classic R) e1 x = Ret (Right v, e1') /\ clf_decision1 S2 (Algo.bitwise R) e2 b = Ret (Right v, e2') /\
    clf_predict1 S1 (classic R) e1 x = Ret (Right y, e1'') /\ clf_predict1 S2 (Algo.bitwise R) e2 b = Ret (Right y, e2'').
Proof. exact @clf_agree. Qed.
Print Assumptions C03_classifiers_agree.
Theorem C03_regressors_agree : forall (R : rnd) g_ok f_ok, rnd_ok R g_ok f_ok -> forall S1, sch_ok S1 -> forall S2, sch_ok S2 ->
  forall a1 p1 os1 rs1 e1 a2 p2 os2 rs2 e2 nf x b,
  reg_created a1 p1 -> reg_created a2 p2 -> ra_clauses a2 = ra_clauses a1 -> ra_threshold a2 = ra_threshold a1 ->
  reg_history S1 (classic R) (cl_view R) p1 os1 rs1 e1 -> reg_history S2 (Algo.bitwise R) (bw_view R) p2 os2 rs2 e2 ->
  reg_dims_of os1 rs1 = Some nf -> reg_dims_of os2 rs2 = Some nf ->
  same_model (Z.to_nat (ra_clauses a1 / 2)) nf (e_ta e1) (e_ta e2) -> dense_ok nf x -> bits_ok nf b -> same_sample nf x b ->
  exists v e1' e2', reg_predict1 S1 (classic R) e1 x = Ret (Right v, e1') /\ reg_predict1 S2 (Algo.bitwise R) e2 b = Ret (Right v, e2').
Proof. exact @reg_agree. Qed.
Print Assumptions C03_regressors_agree.
Theorem C03_clause_outputs_agree : forall (R : rnd) n nf (s1 : tastate (a_pol (classic R))) (s2 : tastate (a_pol (Algo.bitwise R))) x b j,
  same_model n nf s1 s2 -> same_sample nf x b -> (j < n)%nat ->
  fires_pruned (bw_view R) nf s2 b j = fires_pruned (cl_view R) nf s1 x j /\
  fires (bw_view R) nf s2 b j = fires (cl_view R) nf s1 x j.
Proof. exact @fires_agree. Qed.
Print Assumptions C03_clause_outputs_agree.
(** both estimators fitted for 0 epochs from the same seed hold the same model, with included and excluded literals *)
Example C03_example : exists e1 e2,
  clf_history toy_sch (classic toy) (cl_view toy) toy_clf_params [CFit (classic toy) toy_X toy_y 0 0] [CRStatus S_OK] e1 /\
  clf_history toy_sch2 (Algo.bitwise toy) (bw_view toy) toy_clf_params [CFit (Algo.bitwise toy) toy_B toy_y 0 0] [CRStatus S_OK] e2 /\
  same_model (2 * Z.to_nat (ca_clauses toy_a / 2)) 3 (e_ta e1) (e_ta e2) /\
  Forall2 (same_sample 3) toy_X toy_B /\
  (exists j k, 0 <= nm_cell (ta_matrix (e_ta e1)) j k) /\ (exists j k, nm_cell (ta_matrix (e_ta e1)) j k < 0).
Proof. exact toy_same_models. Qed.

(** C04: one entry per label; entry l is the sum over the clauses j of label l that fire of +(1 + weight) for even and
    -(1 + weight) for odd j, clamped. *)
Theorem C04_decision_function_is_clamped_vote : forall (R : rnd) g_ok f_ok (S : sch) (A : algo R) (vw : aview A) a p os rs e,
  rnd_ok R g_ok f_ok -> sch_ok S -> tsetlini_algo R A vw -> clf_created a p -> clf_history S A vw p os rs e ->
  forall x v e', v_phys vw x -> clf_decision1 S A e x = Ret (Right v, e') ->
  exists L nf, clf_dims_of os rs = Some (L, nf) /\ length v = L /\
    forall l, (l < L)%nat -> v !! l = Some (clamp (- ca_threshold a) (ca_threshold a)
      (signed_votes (Z.to_nat (ca_clauses a / 2)) (fun j => fires_pruned vw nf (e_ta e) x (l * Z.to_nat (ca_clauses a / 2) + j)%nat)
         (fun j => weight_of (ta_weights (e_ta e)) (l * Z.to_nat (ca_clauses a / 2) + j)))).
Proof. intros * HR HS HA. exact (decision_votes g_ok f_ok HR S HS A vw HA a p os rs e). Qed.
Print Assumptions C04_decision_function_is_clamped_vote.
Theorem C04_decision_function_is_bounded : forall (R : rnd) g_ok f_ok (S : sch) (A : algo R) (vw : aview A) a p os rs e,
  rnd_ok R g_ok f_ok -> sch_ok S -> tsetlini_algo R A vw -> clf_created a p -> clf_history S A vw p os rs e ->
  forall x v e', v_phys vw x -> clf_decision1 S A e x = Ret (Right v, e') ->
  Forall (fun z => - ca_threshold a <= z <= ca_threshold a) v.
Proof. intros * HR HS HA. exact (decision_bounded g_ok f_ok HR S HS A vw HA a p os rs e). Qed.
Print Assumptions C04_decision_function_is_bounded.
Example C04_example : exists e, clf_history toy_sch (classic toy) (cl_view toy) toy_clf_params (toy_clf_ops (classic toy) toy_X) (toy_clf_res [0; 1; 0; 0] [0; 1; 1; 0]) e /\
  results (clf_decision1 toy_sch (classic toy) e [1; 0; 0]) = Some (Right [-2; -1]).
Proof. exact toy_decision. Qed.

(** C05 *)
Theorem C05_predicted_label_is_first_maximum : forall (R : rnd) g_ok f_ok (S : sch) (A : algo R) (vw : aview A) a p os rs e,
  rnd_ok R g_ok f_ok -> sch_ok S -> tsetlini_algo R A vw -> clf_created a p -> clf_history S A vw p os rs e ->
  forall x y e', v_phys vw x -> clf_predict1 S A e x = Ret (Right y, e') ->
  exists v e'' L nf, clf_decision1 S A e x = Ret (Right v, e'') /\ clf_dims_of os rs = Some (L, nf) /\ length v = L /\
    0 <= y < Z.of_nat L /\ first_max v (Z.to_nat y).
Proof. intros * HR HS HA. exact (predicted_label g_ok f_ok HR S HS A vw HA a p os rs e). Qed.
Print Assumptions C05_predicted_label_is_first_maximum.
Example C05_example : first_max [-2; 3; 3; 1] 1 /\ ~ first_max [-2; 3; 3; 1] 2 /\
  exists e, clf_history toy_sch (classic toy) (cl_view toy) toy_clf_params (toy_clf_ops (classic toy) toy_X) (toy_clf_res [0; 1; 0; 0] [0; 1; 1; 0]) e /\
  results (clf_predict1 toy_sch (classic toy) e [1; 0; 0]) = Some (Right 1).
Proof. exact toy_first_max. Qed.

(** C06: a non-empty batch gives the list of single answers, or the error of one of its samples. *)
Theorem C06_predict_batch_is_map : forall (R : rnd) g_ok f_ok (S : sch) (A : algo R) (vw : aview A) a p os rs e,
  rnd_ok R g_ok f_ok -> sch_ok S -> tsetlini_algo R A vw -> clf_created a p -> clf_history S A vw p os rs e ->
  forall X, Forall (v_phys vw) X -> X <> [] ->
  (exists ys e', clf_predict S A e X = Ret (Right ys, e') /\ Forall2 (fun x y => exists e'', clf_predict1 S A e x = Ret (Right y, e'')) X ys) \/
  (exists st e', clf_predict S A e X = Ret (Left st, e') /\ exists x e'', x ∈ X /\ clf_predict1 S A e x = Ret (Left st, e'')).
Proof. intros * HR HS HA. exact (predict_batch g_ok f_ok HR S HS A vw HA a p os rs e). Qed.
Print Assumptions C06_predict_batch_is_map.
Theorem C06_decision_function_batch_is_map : forall (R : rnd) g_ok f_ok (S : sch) (A : algo R) (vw : aview A) a p os rs e,
  rnd_ok R g_ok f_ok -> sch_ok S -> tsetlini_algo R A vw -> clf_created a p -> clf_history S A vw p os rs e ->
  forall X, Forall (v_phys vw) X -> X <> [] ->
  (exists ys e', clf_decision S A e X = Ret (Right ys, e') /\ Forall2 (fun x y => exists e'', clf_decision1 S A e x = Ret (Right y, e'')) X ys) \/
  (exists st e', clf_decision S A e X = Ret (Left st, e') /\ exists x e'', x ∈ X /\ clf_decision1 S A e x = Ret (Left st, e'')).
Proof. intros * HR HS HA. exact (decision_batch g_ok f_ok HR S HS A vw HA a p os rs e). Qed.
Print Assumptions C06_decision_function_batch_is_map.
Theorem C06_regressor_batch_is_map : forall (R : rnd) g_ok f_ok (S : sch) (A : algo R) (vw : aview A) a p os rs e,
  rnd_ok R g_ok f_ok -> sch_ok S -> tsetlini_algo R A vw -> reg_created a p -> reg_history S A vw p os rs e ->
  forall X, Forall (v_phys vw) X -> X <> [] ->
  (exists ys e', reg_predict S A e X = Ret (Right ys, e') /\ Forall2 (fun x y => exists e'', reg_predict1 S A e x = Ret (Right y, e'')) X ys) \/
  (exists st e', reg_predict S A e X = Ret (Left st, e') /\ exists x e'', x ∈ X /\ reg_predict1 S A e x = Ret (Left st, e'')).
Proof. intros * HR HS HA. exact (regressor_batch g_ok f_ok HR S HS A vw HA a p os rs e). Qed.
Print Assumptions C06_regressor_batch_is_map.
Example C06_example : exists e, clf_history toy_sch (Algo.bitwise toy) (bw_view toy) toy_clf_params (toy_clf_ops (Algo.bitwise toy) toy_B) (toy_clf_res [0; 1; 1; 0] [0; 1; 1; 0]) e /\
  results (clf_predict toy_sch (Algo.bitwise toy) e toy_B) = Some (Right [0; 1; 1; 0]) /\
  map (fun b => results (clf_predict1 toy_sch (Algo.bitwise toy) e b)) toy_B = map (fun y => Some (Right y)) [0; 1; 1; 0].
Proof. exact toy_batch. Qed.

(** C07 *)
Theorem C07_regressor_response_is_clamped_count : forall (R : rnd) g_ok f_ok (S : sch) (A : algo R) (vw : aview A) a p os rs e,
  rnd_ok R g_ok f_ok -> sch_ok S -> tsetlini_algo R A vw -> reg_created a p -> reg_history S A vw p os rs e ->
  forall x v e', v_phys vw x -> reg_predict1 S A e x = Ret (Right v, e') ->
  exists nf, reg_dims_of os rs = Some nf /\
    v = clamp 0 (ra_threshold a) (total_votes (Z.to_nat (ra_clauses a / 2)) (fires_pruned vw nf (e_ta e) x) (weight_of (ta_weights (e_ta e)))) /\
    0 <= v <= ra_threshold a.
Proof. intros * HR HS HA. exact (regressor_response g_ok f_ok HR S HS A vw HA a p os rs e). Qed.
Print Assumptions C07_regressor_response_is_clamped_count.
Example C07_example : exists e, reg_history toy_sch (classic toy) (cl_view toy) toy_reg_params (toy_reg_ops (classic toy) toy_X) (toy_reg_res [0; 2; 0; 3] [0; 2; 0; 4]) e /\
  results (reg_predict1 toy_sch (classic toy) e [1; 1; 0]) = Some (Right 4).
Proof. exact toy_response. Qed.

(** C08: on every reachable estimator and for every argument the prediction calls return, and which answer they give is
    the table [read_table]: S_NOT_FITTED_ERROR iff never fitted, else S_VALUE_ERROR iff the argument is not valid, else a value.
    [v_ok vw nf x] unfolds to [dense_ok nf x] (classic: nf values, all 0 or 1) resp. [bits_ok nf x] (bitwise: nf bits, padding clear). *)
Theorem C08_predict_table : forall (R : rnd) g_ok f_ok (S : sch) (A : algo R) (vw : aview A) a p os rs e,
  rnd_ok R g_ok f_ok -> sch_ok S -> tsetlini_algo R A vw -> clf_created a p -> clf_history S A vw p os rs e ->
  forall x, v_phys vw x -> exists r e', clf_predict1 S A e x = Ret (r, e') /\
    read_table (CRStatus S_OK ∈ rs) (forall nf, clf_features A os rs nf -> v_ok vw nf x) r.
Proof. intros * HR HS HA. exact (clf_predict1_table g_ok f_ok HR S HS A vw HA a p os rs e). Qed.
Print Assumptions C08_predict_table.
Theorem C08_decision_function_table : forall (R : rnd) g_ok f_ok (S : sch) (A : algo R) (vw : aview A) a p os rs e,
  rnd_ok R g_ok f_ok -> sch_ok S -> tsetlini_algo R A vw -> clf_created a p -> clf_history S A vw p os rs e ->
  forall x, v_phys vw x -> exists r e', clf_decision1 S A e x = Ret (r, e') /\
    read_table (CRStatus S_OK ∈ rs) (forall nf, clf_features A os rs nf -> v_ok vw nf x) r.
Proof. intros * HR HS HA. exact (clf_decision1_table g_ok f_ok HR S HS A vw HA a p os rs e). Qed.
Print Assumptions C08_decision_function_table.
Theorem C08_predict_batch_table : forall (R : rnd) g_ok f_ok (S : sch) (A : algo R) (vw : aview A) a p os rs e,
  rnd_ok R g_ok f_ok -> sch_ok S -> tsetlini_algo R A vw -> clf_created a p -> clf_history S A vw p os rs e ->
  forall X, Forall (v_phys vw) X -> exists r e', clf_predict S A e X = Ret (r, e') /\
    read_table (CRStatus S_OK ∈ rs) (forall nf, clf_features A os rs nf -> X <> [] /\ Forall (v_ok vw nf) X) r.
Proof. intros * HR HS HA. exact (clf_predict_table g_ok f_ok HR S HS A vw HA a p os rs e). Qed.
Print Assumptions C08_predict_batch_table.
Theorem C08_decision_function_batch_table : forall (R : rnd) g_ok f_ok (S : sch) (A : algo R) (vw : aview A) a p os rs e,
  rnd_ok R g_ok f_ok -> sch_ok S -> tsetlini_algo R A vw -> clf_created a p -> clf_history S A vw p os rs e ->
  forall X, Forall (v_phys vw) X -> exists r e', clf_decision S A e X = Ret (r, e') /\
    read_table (CRStatus S_OK ∈ rs) (forall nf, clf_features A os rs nf -> X <> [] /\ Forall (v_ok vw nf) X) r.
Proof. intros * HR HS HA. exact (clf_decision_table g_ok f_ok HR S HS A vw HA a p os rs e). Qed.
Print Assumptions C08_decision_function_batch_table.
Theorem C08_regressor_predict_table : forall (R : rnd) g_ok f_ok (S : sch) (A : algo R) (vw : aview A) a p os rs e,
  rnd_ok R g_ok f_ok -> sch_ok S -> tsetlini_algo R A vw -> reg_created a p -> reg_history S A vw p os rs e ->
  forall x, v_phys vw x -> exists r e', reg_predict1 S A e x = Ret (r, e') /\
    read_table (RRStatus S_OK ∈ rs) (forall nf, reg_dims_of os rs = Some nf -> v_ok vw nf x) r.
Proof. intros * HR HS HA. exact (reg_predict1_table g_ok f_ok HR S HS A vw HA a p os rs e). Qed.
Print Assumptions C08_regressor_predict_table.
Theorem C08_regressor_predict_batch_table : forall (R : rnd) g_ok f_ok (S : sch) (A : algo R) (vw : aview A) a p os rs e,
  rnd_ok R g_ok f_ok -> sch_ok S -> tsetlini_algo R A vw -> reg_created a p -> reg_history S A vw p os rs e ->
  forall X, Forall (v_phys vw) X -> exists r e', reg_predict S A e X = Ret (r, e') /\
    read_table (RRStatus S_OK ∈ rs) (forall nf, reg_dims_of os rs = Some nf -> X <> [] /\ Forall (v_ok vw nf) X) r.
Proof. intros * HR HS HA. exact (reg_predict_table g_ok f_ok HR S HS A vw HA a p os rs e). Qed.
Print Assumptions C08_regressor_predict_batch_table.
(** what "valid" means for the two sample types *)
Theorem C08_valid_samples : forall (R : rnd) nf,
  (forall x, v_ok (cl_view R) nf x <-> length x = nf /\ Forall (fun v => v = 0 \/ v = 1) x) /\
  (forall b, v_phys (bw_view R) b -> (v_ok (bw_view R) nf b <-> bv_len b = nf /\ forall q, (nf <= q)%nat -> bv_bit 64 b q = false)).
Proof. exact valid_samples. Qed.
Print Assumptions C08_valid_samples.
Example C08_example : exists e, clf_history toy_sch (classic toy) (cl_view toy) toy_clf_params (toy_clf_ops (classic toy) toy_X) (toy_clf_res [0; 1; 0; 0] [0; 1; 1; 0]) e /\
  results (clf_predict1 toy_sch (classic toy) e [1; 0]) = Some (Left S_VALUE_ERROR) /\
  results (clf_predict1 toy_sch (classic toy) e [1; 0; 2]) = Some (Left S_VALUE_ERROR) /\
  results (clf_predict toy_sch (classic toy) e []) = Some (Left S_VALUE_ERROR) /\
  results (clf_predict1 toy_sch (classic toy) (construct toy_sch (classic toy) toy_clf_params) [1; 0; 0]) = Some (Left S_NOT_FITTED_ERROR).
Proof. exact toy_tables. Qed.

(** C09: a const call leaves parameters, automata, weights and generators as they are ... *)
Theorem C09_const_calls_change_nothing : forall (R : rnd) g_ok f_ok (S : sch) (A : algo R) (vw : aview A) a p os rs e,
  rnd_ok R g_ok f_ok -> sch_ok S -> tsetlini_algo R A vw -> clf_created a p -> clf_history S A vw p os rs e ->
  forall o r e', clf_op_phys A vw o -> clf_const A o -> clf_step S A e o = Ret (r, e') ->
  e_params e' = e_params e /\ e_ta e' = e_ta e /\ e_igen e' = e_igen e /\ e_fgen e' = e_fgen e.
Proof. intros * HR HS HA Hc Hh *. exact (clf_read_frame g_ok f_ok HR A vw HA S HS a p os rs e o r e' Hc Hh). Qed.
Print Assumptions C09_const_calls_change_nothing.
Theorem C09_const_calls_change_nothing_regressor : forall (R : rnd) g_ok f_ok (S : sch) (A : algo R) (vw : aview A) a p os rs e,
  rnd_ok R g_ok f_ok -> sch_ok S -> tsetlini_algo R A vw -> reg_created a p -> reg_history S A vw p os rs e ->
  forall o r e', reg_op_phys A vw o -> reg_const A o -> reg_step S A e o = Ret (r, e') ->
  e_params e' = e_params e /\ e_ta e' = e_ta e /\ e_igen e' = e_igen e /\ e_fgen e' = e_fgen e.
Proof. intros * HR HS HA Hc Hh *. exact (reg_read_frame g_ok f_ok HR A vw HA S HS a p os rs e o r e' Hc Hh). Qed.
Print Assumptions C09_const_calls_change_nothing_regressor.
(** ... and, although it writes to the shared scratch buffers, removing any const calls from a history changes neither the results of
    the remaining calls nor the estimator they lead to.  (evaluate is considered within its contract only, see C11.) *)
Theorem C09_const_calls_are_invisible : forall (R : rnd) g_ok f_ok (S : sch) (A : algo R) (vw : aview A) a p os rs e,
  rnd_ok R g_ok f_ok -> sch_ok S -> tsetlini_algo R A vw -> clf_created a p -> clf_history S A vw p os rs e ->
  forall os' rs', evaluates_ok S A vw None (construct S A p) os -> fewer_reads (clf_const A) os rs os' rs' ->
  exists e', clf_history S A vw p os' rs' e' /\
    e_params e' = e_params e /\ e_ta e' = e_ta e /\ e_igen e' = e_igen e /\ e_fgen e' = e_fgen e.
Proof. intros * HR HS HA Hc Hh *. exact (clf_reads_invisible g_ok f_ok HR A vw HA S HS a p os rs e os' rs' Hc Hh). Qed.
Print Assumptions C09_const_calls_are_invisible.
Theorem C09_const_calls_are_invisible_regressor : forall (R : rnd) g_ok f_ok (S : sch) (A : algo R) (vw : aview A) a p os rs e,
  rnd_ok R g_ok f_ok -> sch_ok S -> tsetlini_algo R A vw -> reg_created a p -> reg_history S A vw p os rs e ->
  forall os' rs', fewer_reads (reg_const A) os rs os' rs' ->
  exists e', reg_history S A vw p os' rs' e' /\
    e_params e' = e_params e /\ e_ta e' = e_ta e /\ e_igen e' = e_igen e /\ e_fgen e' = e_fgen e.
Proof. intros * HR HS HA Hc Hh *. exact (reg_reads_invisible g_ok f_ok HR A vw HA S HS a p os rs e os' rs' Hc Hh). Qed.
Print Assumptions C09_const_calls_are_invisible_regressor.
(** the toy history without its four predictions *)
Example C09_example : evaluates_ok toy_sch CL (cl_view toy) None cl_start (toy_clf_ops CL toy_X) /\
  fewer_reads (clf_const CL) (toy_clf_ops CL toy_X) (toy_clf_res [0; 1; 0; 0] [0; 1; 1; 0])
    [CFit CL toy_X toy_y 0 3; CPartialFit CL toy_X [0; 1; 2; 0] 0 1; CPartialFit CL toy_X toy_y 0 2] [CRStatus S_OK; CRStatus S_VALUE_ERROR; CRStatus S_OK].
Proof. exact toy_fewer. Qed.
