(** * C83: what a saved document says about predictions.
    The specification is Document.v: a reader of JSON values that evaluates a saved model without the library. *)
From Verif Require Import FloatFacts.
From Verif Require Import OneStep StateProps.
From Verif Require Import TextIO JsonGrammar TextState Document DocProps.
From Verif Require Import PropsState PropsLoad PropsText ToyTrain ToyDefects.
From stdpp Require Import list option.
Local Open Scope Z_scope.

(** Every fitted classifier can be saved, and whatever JSON value the text has (there is just one), the independent reader finds a model in
    it whose votes are those of decision_function, and whose winning label is that of predict, for every sample.
    [v_x vw x k]: feature [k] of the sample [x] is 1.  [trains_well] excludes bitwise estimators with number_of_states = 1 (C14). *)
Theorem C83_classifier : forall sh l fuel b1 b2, shuffle_ok sh -> forall (A : algo (mt_rnd sh l fuel b1 b2)) vw C, tsetlini_codec _ A vw C ->
  forall S, sch_ok S -> forall a p os rs e L nf, trains_well _ (ca_states a) A vw -> clf_created a p -> clf_made_text p ->
  clf_history S A vw p os rs e -> clf_dims_of os rs = Some (L, nf) ->
  exists t, clf_to_json_string C S e = Ret t /\ forall j, json_text t j -> exists m, read_classifier j = Some m /\
    forall x, v_phys vw x -> v_ok vw nf x -> exists e1 e2 w,
      clf_decision1 S A e x = Ret (Right (document_votes m (v_x vw x)), e1) /\
      clf_predict1 S A e x = Ret (Right (Z.of_nat w), e2) /\ wins m (v_x vw x) w.
Proof. exact clf_document. Qed.
Print Assumptions C83_classifier.

Theorem C83_regressor : forall sh l fuel b1 b2, shuffle_ok sh -> forall (A : algo (mt_rnd sh l fuel b1 b2)) vw C, tsetlini_codec _ A vw C ->
  forall S, sch_ok S -> forall a p os rs e nf, trains_well _ (ra_states a) A vw -> reg_created a p -> reg_made_text p ->
  reg_history S A vw p os rs e -> reg_dims_of os rs = Some nf ->
  exists t, reg_to_json_string C S e = Ret t /\ forall j, json_text t j -> exists m, read_regressor j = Some m /\
    forall x, v_phys vw x -> v_ok vw nf x -> exists e1, reg_predict1 S A e x = Ret (Right (document_response m (v_x vw x)), e1).
Proof. exact reg_document. Qed.
Print Assumptions C83_regressor.

(** the text has a value *)
Theorem C83_readable : forall sh l fuel b1 b2, shuffle_ok sh -> forall (A : algo (mt_rnd sh l fuel b1 b2)) vw C, tsetlini_codec _ A vw C ->
  forall S, sch_ok S ->
  (forall p os rs e t, clf_made_text p -> clf_history S A vw p os rs e -> clf_to_json_string C S e = Ret t -> exists j, json_text t j) /\
  (forall p os rs e t, reg_made_text p -> reg_history S A vw p os rs e -> reg_to_json_string C S e = Ret t -> exists j, json_text t j).
Proof. exact documents_readable. Qed.
Print Assumptions C83_readable.

(** the hypotheses are met *)
Example C83_example : exists e, tsetlini_codec mt42 CM (cl_view mt42) classic_codec /\ trains_well mt42 (ca_states n1_a) CM (cl_view mt42) /\
  clf_created n1_a n1_params /\ clf_made_text n1_params /\
  clf_history toy_sch CM (cl_view mt42) n1_params two_ops [CRStatus S_OK] e /\ clf_dims_of two_ops [CRStatus S_OK] = Some (2%nat, 3%nat).
Proof.
  destruct C58_example as (e1 & e & j & _ & _ & _ & H & Hd & _). exists e. split; [constructor|]. split; [constructor|]. split; [exact n1_created|].
  split; [exact (proj1 C74_example)|]. split; [exact H|exact Hd].
Qed.
Example C83_example_regressor : exists e, reg_created toy_ra toy_reg_params /\ reg_made_text toy_reg_params /\
  reg_history toy_sch CM (cl_view mt42) toy_reg_params mt_reg_ops [RRStatus S_OK] e /\ reg_dims_of mt_reg_ops [RRStatus S_OK] = Some 3%nat.
Proof.
  destruct C30_example_regressor as (e & _ & _ & H & Hd). exists e. split; [exact toy_reg_created|]. split; [exact (proj1 (proj2 (proj2 C74_example)))|].
  split; [exact H|exact Hd].
Qed.
(** a document evaluated by the reader: two labels, four clauses of the parameter each, so two pairs of rows each; two features.
    Label 0: for x0, against (not x0 and x1).  Label 1: for (not x0), with 3 votes; against nothing (an empty clause never votes). *)
Definition small_doc : json := JObj [
  ("params", JObj [("number_of_clauses_per_label", JUns 4); ("number_of_features", JUns 2); ("number_of_labels", JUns 2); ("threshold", JUns 2)]);
  ("ta_state", JObj [
    ("matrix", JObj [("data", JArr [
      JArr [JUns 0; JInt (-1)]; JArr [JInt (-1); JInt (-1)];  JArr [JInt (-1); JUns 4]; JArr [JUns 1; JInt (-2)];
      JArr [JInt (-1); JInt (-1)]; JArr [JUns 0; JInt (-3)];  JArr [JInt (-1); JInt (-1)]; JArr [JInt (-1); JInt (-1)]]); ("width", JUns 1)]);
    ("weights", JArr [JUns 0; JUns 0; JUns 2; JUns 0])])]%string.
Example C83_example_document : exists m, read_classifier small_doc = Some m /\
  document_votes m (fun k => bool_decide (k = 0%nat)) = [1; 0] /\ document_votes m (fun k => bool_decide (k = 1%nat)) = [-1; 2] /\
  wins m (fun k => bool_decide (k = 0%nat)) 0 /\ wins m (fun k => bool_decide (k = 1%nat)) 1.
Proof.
  eexists. split; [reflexivity|]. split; [reflexivity|]. split; [reflexivity|].
  split; (split; [cbn; lia|]); intros [|[|l]] Hl; try (cbn in Hl; lia); split; intros; try lia; vm_compute; congruence.
Qed.
