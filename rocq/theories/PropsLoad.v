(** * Property theorems about loads that do not succeed and loads of other kinds of documents: C58, C59.
    Reading guide: [clf_load C S e js] (LoadState.v) is from_json_string of the classifier state [e] on the document [js]: its result is
    the exception thrown, if any, and the state afterwards.  [clf_reads]-style calls ([clf_const], SimFacts.v): predict, evaluate and
    the decision function of a const estimator.  [model_of j js] (LoadProps.v): the members "igen", "fgen" and "ta_state" of [js] are
    those of the saved text [reparse j].  The rest as in PropsState.v. *)
From Verif Require Import LoadKind ToyTrain ToyDefects PropsState.
From stdpp Require Import list.
Local Open Scope Z_scope.

(** ** C58: a load that throws *)
(** the step-by-step load and the load of C30 are one function: same exceptions, same undefined behaviour, same final state *)
Theorem C58_same_loads : forall P (C : pol_codec P) S (e : est P (eS S) irng frng) js,
  load_agrees (clf_from_json C S e js) (clf_load C S e js) /\ load_agrees (reg_from_json C S e js) (reg_load C S e js).
Proof. intros P C S e js. split; apply load_from_json; intros p; [apply clf_steps_agree|apply reg_steps_agree]. Qed.
Print Assumptions C58_same_loads.

(** a document one of whose members "igen", "fgen", "ta_state" is missing or cannot be read: the load throws (or is undefined, for an
    array that is too long), and whatever sequence of reading calls follows is answered as it would have been before *)
Definition unreadable {P} (C : pol_codec P) (js : json) : Prop :=
  ~ (exists g f t, read_igen js = Ret g /\ read_fgen js = Ret f /\ read_ta C js = Ret t).
Theorem C58_unreadable_classifier : forall sh l fuel b1 b2 (A : algo (mt_rnd sh l fuel b1 b2)) vw C, tsetlini_codec _ A vw C -> forall S
  (e : est (a_pol A) (eS S) irng frng) js, unreadable C js ->
  (exists x e', clf_load C S e js = Ret (Some x, e') /\ e_params e' = e_params e /\ e_ta e' = e_ta e /\
     forall os, Forall (clf_const A) os -> orel (fun r1 r2 => r2.1 = r1.1) (clf_run S A e os) (clf_run S A e' os)) \/
  (exists u, clf_load C S e js = UB u).
Proof. intros sh l fuel b1 b2 A vw C HC S e js. exact (clf_unread sh l fuel b1 b2 A vw C HC S e js). Qed.
Print Assumptions C58_unreadable_classifier.
Theorem C58_unreadable_regressor : forall sh l fuel b1 b2 (A : algo (mt_rnd sh l fuel b1 b2)) vw C, tsetlini_codec _ A vw C -> forall S
  (e : est (a_pol A) (eS S) irng frng) js, unreadable C js ->
  (exists x e', reg_load C S e js = Ret (Some x, e') /\ e_params e' = e_params e /\ e_ta e' = e_ta e /\
     forall os, Forall (reg_const A) os -> orel (fun r1 r2 => r2.1 = r1.1) (reg_run S A e os) (reg_run S A e' os)) \/
  (exists u, reg_load C S e js = UB u).
Proof. intros sh l fuel b1 b2 A vw C HC S e js. exact (reg_unread sh l fuel b1 b2 A vw C HC S e js). Qed.
Print Assumptions C58_unreadable_regressor.

(** a document with everything but usable parameters: the load throws, but the automata, weights and generators are those of the
    document, while the parameters and the scratch buffers are the old ones *)
Theorem C58_mixed_classifier : forall sh l fuel b1 b2, shuffle_ok sh -> forall (A : algo (mt_rnd sh l fuel b1 b2)) vw C, tsetlini_codec _ A vw C ->
  forall S1 S2, sch_ok S2 -> forall e1 a2 p2 os2 rs2 e2 L2 nf2,
  clf_created a2 p2 -> clf_history S2 A vw p2 os2 rs2 e2 -> clf_dims_of os2 rs2 = Some (L2, nf2) ->
  exists j, clf_to_json C S2 e2 = Ret j /\ forall js x, model_of j js -> read_params_t js = Throw x ->
    clf_load C S1 e1 js = Ret (Some x, Est (e_params e1) (e_ta e2) (e_cache e1) (e_igen e2) (e_fgen e2)).
Proof.
  intros sh l fuel b1 b2 Hsh A vw C HC S1 S2 HS2 e1 a2 p2 os2 rs2 e2 L2 nf2 Hc Hh Hd.
  exact (clf_mixed sh l fuel b1 b2 Hsh A vw C HC S1 S2 a2 p2 os2 rs2 e1 e2 L2 nf2 HS2 Hc Hh Hd).
Qed.
Print Assumptions C58_mixed_classifier.
Theorem C58_mixed_regressor : forall sh l fuel b1 b2, shuffle_ok sh -> forall (A : algo (mt_rnd sh l fuel b1 b2)) vw C, tsetlini_codec _ A vw C ->
  forall S1 S2, sch_ok S2 -> forall e1 a2 p2 os2 rs2 e2 nf2,
  reg_created a2 p2 -> reg_history S2 A vw p2 os2 rs2 e2 -> reg_dims_of os2 rs2 = Some nf2 ->
  exists j, reg_to_json C S2 e2 = Ret j /\ forall js x, model_of j js -> read_params_t js = Throw x ->
    reg_load C S1 e1 js = Ret (Some x, Est (e_params e1) (e_ta e2) (e_cache e1) (e_igen e2) (e_fgen e2)).
Proof.
  intros sh l fuel b1 b2 Hsh A vw C HC S1 S2 HS2 e1 a2 p2 os2 rs2 e2 nf2 Hc Hh Hd.
  exact (reg_mixed sh l fuel b1 b2 Hsh A vw C HC S1 S2 a2 p2 os2 rs2 e1 e2 nf2 HS2 Hc Hh Hd).
Qed.
Print Assumptions C58_mixed_regressor.

(** so "a load that throws leaves an estimator that can be used" is false: with a document of fewer clauses than the loading
    estimator has, the next prediction of a valid sample reads past the end of the matrix *)
Theorem C58_classifier_refuted : forall sh l fuel b1 b2, shuffle_ok sh -> forall (A : algo (mt_rnd sh l fuel b1 b2)) vw C, tsetlini_codec _ A vw C ->
  forall S1 S2, sch_ok S1 -> sch_ok S2 -> forall a1 p1 os1 rs1 e1 L1 a2 p2 os2 rs2 e2 L2 nf,
  clf_created a1 p1 -> clf_history S1 A vw p1 os1 rs1 e1 -> clf_dims_of os1 rs1 = Some (L1, nf) ->
  clf_created a2 p2 -> clf_history S2 A vw p2 os2 rs2 e2 -> clf_dims_of os2 rs2 = Some (L2, nf) ->
  (0 < nf)%nat -> Z.of_nat L2 * ca_clauses a2 < Z.of_nat L1 * ca_clauses a1 ->
  exists j, clf_to_json C S2 e2 = Ret j /\ forall js, model_of j js -> j_at js "params" = Throw JsonOutOfRange ->
    exists e', clf_load C S1 e1 js = Ret (Some JsonOutOfRange, e') /\
      forall x, v_phys vw x -> v_ok vw nf x -> clf_predict1 S1 A e' x = UB OutOfBounds.
Proof.
  intros sh l fuel b1 b2 Hsh A vw C HC S1 S2 HS1 HS2 a1 p1 os1 rs1 e1 L1 a2 p2 os2 rs2 e2 L2 nf Hc1 Hh1 Hd1 Hc2 Hh2 Hd2 Hnf Hlt.
  destruct (clf_mixed sh l fuel b1 b2 Hsh A vw C HC S1 S2 a2 p2 os2 rs2 e1 e2 L2 nf HS2 Hc2 Hh2 Hd2) as (j & Ej & Hj).
  exists j. split; [exact Ej|]. intros js Hm Hp. eexists. split; [apply Hj; [exact Hm|]; unfold read_params_t; by rewrite Hp|].
  intros x Hph Hx. exact (clf_mixed_predict sh l fuel b1 b2 Hsh A vw C HC S1 S2 a1 p1 os1 rs1 e1 L1 a2 p2 os2 rs2 e2 L2 nf x HS1 HS2 Hc1 Hh1 Hd1 Hc2 Hh2 Hd2 Hnf Hlt Hph Hx).
Qed.
Print Assumptions C58_classifier_refuted.
Theorem C58_regressor_refuted : forall sh l fuel b1 b2, shuffle_ok sh -> forall (A : algo (mt_rnd sh l fuel b1 b2)) vw C, tsetlini_codec _ A vw C ->
  forall S1 S2, sch_ok S1 -> sch_ok S2 -> forall a1 p1 os1 rs1 e1 a2 p2 os2 rs2 e2 nf,
  reg_created a1 p1 -> reg_history S1 A vw p1 os1 rs1 e1 -> reg_dims_of os1 rs1 = Some nf ->
  reg_created a2 p2 -> reg_history S2 A vw p2 os2 rs2 e2 -> reg_dims_of os2 rs2 = Some nf ->
  (0 < nf)%nat -> ra_clauses a2 < ra_clauses a1 ->
  exists j, reg_to_json C S2 e2 = Ret j /\ forall js, model_of j js -> j_at js "params" = Throw JsonOutOfRange ->
    exists e', reg_load C S1 e1 js = Ret (Some JsonOutOfRange, e') /\
      forall x, v_phys vw x -> v_ok vw nf x -> reg_predict1 S1 A e' x = UB OutOfBounds.
Proof.
  intros sh l fuel b1 b2 Hsh A vw C HC S1 S2 HS1 HS2 a1 p1 os1 rs1 e1 a2 p2 os2 rs2 e2 nf Hc1 Hh1 Hd1 Hc2 Hh2 Hd2 Hnf Hlt.
  destruct (reg_mixed sh l fuel b1 b2 Hsh A vw C HC S1 S2 a2 p2 os2 rs2 e1 e2 nf HS2 Hc2 Hh2 Hd2) as (j & Ej & Hj).
  exists j. split; [exact Ej|]. intros js Hm Hp. eexists. split; [apply Hj; [exact Hm|]; unfold read_params_t; by rewrite Hp|].
  intros x Hph Hx. exact (reg_mixed_predict sh l fuel b1 b2 Hsh A vw C HC S1 S2 a1 p1 os1 rs1 e1 a2 p2 os2 rs2 e2 nf x HS1 HS2 Hc1 Hh1 Hd1 Hc2 Hh2 Hd2 Hnf Hlt Hph Hx).
Qed.
Print Assumptions C58_regressor_refuted.

(** the hypotheses are met: two classic classifiers with the same parameters, fitted to three and to two labels, and the saved
    document without its parameters; an unreadable document *)
Definition three_ops : list (clf_op CM) := [CFit CM toy_X [0; 1; 2; 1] 0 1].
Definition two_ops : list (clf_op CM) := [CFit CM toy_X [0; 1; 0; 1] 0 1].
Example C58_example : exists e1 e2 j, clf_created n1_a n1_params /\
  clf_history toy_sch CM (cl_view mt42) n1_params three_ops [CRStatus S_OK] e1 /\ clf_dims_of three_ops [CRStatus S_OK] = Some (3%nat, 3%nat) /\
  clf_history toy_sch CM (cl_view mt42) n1_params two_ops [CRStatus S_OK] e2 /\ clf_dims_of two_ops [CRStatus S_OK] = Some (2%nat, 3%nat) /\
  Z.of_nat 2 * ca_clauses n1_a < Z.of_nat 3 * ca_clauses n1_a /\
  clf_to_json classic_codec toy_sch e2 = Ret j /\ model_of j (drop_params (reparse j)) /\ j_at (drop_params (reparse j)) "params" = Throw JsonOutOfRange.
Proof.
  destruct (results_ret (clf_run toy_sch CM (construct toy_sch CM n1_params) three_ops) [CRStatus S_OK]) as [e1 Q1]; [vm_compute; reflexivity|].
  destruct (results_ret (clf_run toy_sch CM (construct toy_sch CM n1_params) two_ops) [CRStatus S_OK]) as [e2 Q2]; [vm_compute; reflexivity|].
  assert (clf_history toy_sch CM (cl_view mt42) n1_params two_ops [CRStatus S_OK] e2) as H2. { split; [|exact Q2]. clear. by repeat constructor. }
  destruct (C58_mixed_classifier _ _ _ _ _ fy_shuffle_ok CM (cl_view mt42) classic_codec ltac:(constructor) toy_sch toy_sch toy_sch_ok e2 n1_a n1_params two_ops
    [CRStatus S_OK] e2 2%nat 3%nat n1_created H2 eq_refl) as (j & Ej & _).
  destruct (saved_object _ _ _ _ _ Ej) as [lj Ej']. exists e1, e2, j. split; [exact n1_created|]. split.
  { split; [|exact Q1]. clear. by repeat constructor. }
  split; [reflexivity|]. split; [exact H2|]. split; [reflexivity|]. split; [reflexivity|]. split; [exact Ej|]. exact (drop_params_spec j lj Ej').
Qed.
Example C58_example_unreadable : unreadable classic_codec (jobject [("igen", JNull)]%string) /\ unreadable bitwise_codec (JArr []).
Proof. split; intros (g & f & t & H & _); vm_compute in H; discriminate H. Qed.

(** ** C59: documents of another kind of estimator *)
(** a regressor's document in a classifier: the load throws std::out_of_range, but the regressor's automata and parameters are in
    place, and predicting a sample of the regressor's size throws again *)
Theorem C59_regressor_in_classifier : forall sh l fuel b1 b2, shuffle_ok sh -> forall (A : algo (mt_rnd sh l fuel b1 b2)) vw C, tsetlini_codec _ A vw C ->
  forall S1 S2, sch_ok S1 -> forall p os rs e (e0 : est (a_pol A) (eS S2) irng frng) nf, reg_made p ->
  reg_history S1 A vw p os rs e -> reg_dims_of os rs = Some nf ->
  exists j e', reg_to_json C S1 e = Ret j /\ clf_load C S2 e0 (reparse j) = Ret (Some OutOfRange, e') /\ e_ta e' = e_ta e /\
    forall x, v_phys vw x -> v_ok vw nf x -> clf_predict1 S2 A e' x = Throw OutOfRange.
Proof.
  intros sh l fuel b1 b2 Hsh A vw C HC S1 S2 HS1 p os rs e e0 nf Hm Hh Hd. destruct (reg_made_facts p Hm) as ((a & Ha) & Hst & _).
  exact (reg_into_clf sh l fuel b1 b2 Hsh A vw C HC S2 S1 a p os rs e0 e nf HS1 Ha Hst (reg_made_unlabelled p Hm) Hh Hd).
Qed.
Print Assumptions C59_regressor_in_classifier.
(** and the other way round, unless the classifier's parameters came from JSON with a number of regressor clauses in it *)
Theorem C59_classifier_in_regressor : forall sh l fuel b1 b2, shuffle_ok sh -> forall (A : algo (mt_rnd sh l fuel b1 b2)) vw C, tsetlini_codec _ A vw C ->
  forall S1 S2, sch_ok S1 -> forall p os rs e (e0 : est (a_pol A) (eS S2) irng frng) L nf, clf_made p -> p !! "number_of_regressor_clauses"%string = None ->
  clf_history S1 A vw p os rs e -> clf_dims_of os rs = Some (L, nf) ->
  exists j e', clf_to_json C S1 e = Ret j /\ reg_load C S2 e0 (reparse j) = Ret (Some OutOfRange, e') /\ e_ta e' = e_ta e /\
    forall x, v_phys vw x -> v_ok vw nf x -> reg_predict1 S2 A e' x = Throw OutOfRange.
Proof.
  intros sh l fuel b1 b2 Hsh A vw C HC S1 S2 HS1 p os rs e e0 L nf Hm Hk Hh Hd. destruct (clf_made_facts p Hm) as ((a & Ha) & Hst & _).
  exact (clf_into_reg sh l fuel b1 b2 Hsh A vw C HC S2 S1 a p os rs e0 e L nf HS1 Ha Hst Hk Hh Hd).
Qed.
Print Assumptions C59_classifier_in_regressor.
(** a bitwise document in a classic estimator (two states or more): loads, with the same automata, weights and parameters, and the
    same decision function and prediction for the same samples *)
Theorem C59_bitwise_in_classic_classifier : forall sh l fuel b1 b2, shuffle_ok sh -> let R := mt_rnd sh l fuel b1 b2 in
  forall S1 S2, sch_ok S1 -> sch_ok S2 -> forall a p os rs e e0 L nf, clf_created a p -> clf_made p -> finite_C1 p -> 2 <= ca_states a ->
  clf_history S1 (Algo.bitwise R) (bw_view R) p os rs e -> clf_dims_of os rs = Some (L, nf) ->
  exists j e', clf_to_json bitwise_codec S1 e = Ret j /\ clf_load classic_codec S2 e0 (reparse j) = Ret (None, e') /\
    e_params e' = e_params e /\ ta_matrix (e_ta e') = ta_matrix (e_ta e) /\ ta_weights (e_ta e') = ta_weights (e_ta e) /\
    forall x b, dense_ok nf x -> bits_ok nf b -> same_sample nf x b ->
      exists v y q1 q2 q3 q4, clf_decision1 S1 (Algo.bitwise R) e b = Ret (Right v, q1) /\ clf_decision1 S2 (classic R) e' x = Ret (Right v, q2) /\
        clf_predict1 S1 (Algo.bitwise R) e b = Ret (Right y, q3) /\ clf_predict1 S2 (classic R) e' x = Ret (Right y, q4).
Proof.
  intros sh l fuel b1 b2 Hsh R S1 S2 HS1 HS2 a p os rs e e0 L nf Hc Hm Hf H2 Hh Hd. destruct (clf_made_facts p Hm) as (_ & Hst & Hfin).
  exact (clf_bitwise_in_classic sh l fuel b1 b2 Hsh S1 S2 a p os rs e e0 L nf HS1 HS2 Hc H2 Hst (Hfin Hf) Hh Hd).
Qed.
Print Assumptions C59_bitwise_in_classic_classifier.
Theorem C59_bitwise_in_classic_regressor : forall sh l fuel b1 b2, shuffle_ok sh -> let R := mt_rnd sh l fuel b1 b2 in
  forall S1 S2, sch_ok S1 -> sch_ok S2 -> forall a p os rs e e0 nf, reg_created a p -> reg_made p -> finite_C1 p -> 2 <= ra_states a ->
  reg_history S1 (Algo.bitwise R) (bw_view R) p os rs e -> reg_dims_of os rs = Some nf ->
  exists j e', reg_to_json bitwise_codec S1 e = Ret j /\ reg_load classic_codec S2 e0 (reparse j) = Ret (None, e') /\
    e_params e' = e_params e /\ ta_matrix (e_ta e') = ta_matrix (e_ta e) /\ ta_weights (e_ta e') = ta_weights (e_ta e) /\
    forall x b, dense_ok nf x -> bits_ok nf b -> same_sample nf x b ->
      exists v q1 q2, reg_predict1 S1 (Algo.bitwise R) e b = Ret (Right v, q1) /\ reg_predict1 S2 (classic R) e' x = Ret (Right v, q2).
Proof.
  intros sh l fuel b1 b2 Hsh R S1 S2 HS1 HS2 a p os rs e e0 nf Hc Hm Hf H2 Hh Hd. destruct (reg_made_facts p Hm) as (_ & Hst & Hfin).
  exact (reg_bitwise_in_classic sh l fuel b1 b2 Hsh S1 S2 a p os rs e e0 nf HS1 HS2 Hc H2 Hst (Hfin Hf) Hh Hd).
Qed.
Print Assumptions C59_bitwise_in_classic_regressor.
(** a classic document in a bitwise estimator: the polarity is missing, the load throws, and only the generators have changed *)
Theorem C59_classic_in_bitwise_classifier : forall sh l fuel b1 b2, shuffle_ok sh -> let R := mt_rnd sh l fuel b1 b2 in
  forall S1 S2, sch_ok S1 -> forall p os rs e e0 L nf, clf_made p ->
  clf_history S1 (classic R) (cl_view R) p os rs e -> clf_dims_of os rs = Some (L, nf) ->
  exists j e', clf_to_json classic_codec S1 e = Ret j /\ clf_load bitwise_codec S2 e0 (reparse j) = Ret (Some JsonOutOfRange, e') /\
    e_params e' = e_params e0 /\ e_ta e' = e_ta e0 /\
    forall os', Forall (clf_const (Algo.bitwise R)) os' ->
      orel (fun r1 r2 => r2.1 = r1.1) (clf_run S2 (Algo.bitwise R) e0 os') (clf_run S2 (Algo.bitwise R) e' os').
Proof.
  intros sh l fuel b1 b2 Hsh R S1 S2 HS1 p os rs e e0 L nf Hm Hh Hd. destruct (clf_made_facts p Hm) as ((a & Ha) & _).
  exact (clf_classic_in_bitwise sh l fuel b1 b2 Hsh S1 S2 a p os rs e e0 L nf HS1 Ha Hh Hd).
Qed.
Print Assumptions C59_classic_in_bitwise_classifier.
Theorem C59_classic_in_bitwise_regressor : forall sh l fuel b1 b2, shuffle_ok sh -> let R := mt_rnd sh l fuel b1 b2 in
  forall S1 S2, sch_ok S1 -> forall p os rs e e0 nf, reg_made p ->
  reg_history S1 (classic R) (cl_view R) p os rs e -> reg_dims_of os rs = Some nf ->
  exists j e', reg_to_json classic_codec S1 e = Ret j /\ reg_load bitwise_codec S2 e0 (reparse j) = Ret (Some JsonOutOfRange, e') /\
    e_params e' = e_params e0 /\ e_ta e' = e_ta e0 /\
    forall os', Forall (reg_const (Algo.bitwise R)) os' ->
      orel (fun r1 r2 => r2.1 = r1.1) (reg_run S2 (Algo.bitwise R) e0 os') (reg_run S2 (Algo.bitwise R) e' os').
Proof.
  intros sh l fuel b1 b2 Hsh R S1 S2 HS1 p os rs e e0 nf Hm Hh Hd. destruct (reg_made_facts p Hm) as ((a & Ha) & _).
  exact (reg_classic_in_bitwise sh l fuel b1 b2 Hsh S1 S2 a p os rs e e0 nf HS1 Ha Hh Hd).
Qed.
Print Assumptions C59_classic_in_bitwise_regressor.

(** the hypotheses are met: the regressor and the classifier of C30_example_regressor and C58_example (built from arguments), and a
    bitwise regressor with ten states *)
Example C59_example_parameters : reg_made toy_reg_params /\ clf_made n1_params /\ n1_params !! "number_of_regressor_clauses"%string = None.
Proof. split; [exact (proj1 toy_reg_made)|]. split; [exact (proj1 n1_made)|]. vm_compute. reflexivity. Qed.
Definition bw_reg_ops : list (reg_op BM) := [RFit BM toy_B toy_ry 1].
Example C59_example : exists e, reg_created toy_ra toy_reg_params /\ reg_made toy_reg_params /\ finite_C1 toy_reg_params /\ 2 <= ra_states toy_ra /\
  reg_history toy_sch BM (bw_view mt42) toy_reg_params bw_reg_ops [RRStatus S_OK] e /\ reg_dims_of bw_reg_ops [RRStatus S_OK] = Some 3%nat.
Proof.
  destruct (results_ret (reg_run toy_sch BM (construct toy_sch BM toy_reg_params) bw_reg_ops) [RRStatus S_OK]) as [e E]; [vm_compute; reflexivity|].
  exists e. split; [exact toy_reg_created|]. split; [exact (proj1 toy_reg_made)|]. split; [exact (proj2 toy_reg_made)|]. split; [vm_compute; discriminate|].
  split; [|reflexivity]. split; [|exact E]. clear E e. constructor; [|constructor]. cbn [reg_op_phys]. exact toy_bits_phys.
Qed.
Example C59_example_samples : forall i x b, toy_X !! i = Some x -> toy_B !! i = Some b -> dense_ok 3 x /\ bits_ok 3 b /\ same_sample 3 x b.
Proof.
  intros i x b Ex Eb. split; [|split].
  - apply elem_of_list_lookup_2 in Ex. unfold toy_X in Ex. rewrite !elem_of_cons, elem_of_nil in Ex.
    destruct_or! Ex; try done; subst; (split; [reflexivity|]); repeat (constructor; [by (left + right)|]); constructor.
  - by eapply Forall_lookup_1; [apply toy_bits_ok|].
  - exact (Forall2_lookup_lr _ _ _ _ _ _ toy_same_samples Ex Eb).
Qed.
