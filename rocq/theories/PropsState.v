(** * Property theorems about saving and loading: C30, C31.
    Reading guide: [to_json] is what save writes and [reparse] what the JSON text layer makes of it, so [from_json .. (reparse j)] is
    loading the saved text (StateJson.v).  [equal_state]/[same_results] (StateProps.v): same parameters, automata, weights, polarity and
    generators / also the same answers.  [clf_made p]: p was returned by one of the classifier parameter factories (StateParams.v);
    [finite_C1 p]: its loss_fn_C1, if any, is finite (the specificity always is).  [tsetlini_codec]: the classic or the bitwise
    estimator with its saved form.  The generators are the library's own ([mt_rnd]); the shuffle of the standard library is arbitrary.
    [S1] and [S2] are the thread schedules of the saving and of the loading program. *)
From Verif Require Import StateProps ToyTrain ToyDefects.
From stdpp Require Import list.
Local Open Scope Z_scope.

(** ** C30: a fitted estimator that is saved and loaded (into any estimator [e0]) is restored, and behaves the same ever after *)
Theorem C30_classifier : forall sh l fuel b1 b2, shuffle_ok sh -> forall (A : algo (mt_rnd sh l fuel b1 b2)) vw C, tsetlini_codec _ A vw C ->
  forall S1 S2, sch_ok S1 -> sch_ok S2 -> forall p os rs e e0 L nf, clf_made p -> finite_C1 p ->
  clf_history S1 A vw p os rs e -> clf_dims_of os rs = Some (L, nf) ->
  exists j e', clf_to_json C S1 e = Ret j /\ clf_from_json C S2 e0 (reparse j) = Ret e' /\ equal_state e e' /\
    forall more, Forall (clf_op_phys A vw) more -> evaluates_ok S1 A vw (Some (L, nf)) e more ->
      orel same_results (clf_run S1 A e more) (clf_run S2 A e' more).
Proof.
  intros sh l fuel b1 b2 Hsh A vw C HC S1 S2 HS1 HS2 p os rs e e0 L nf Hm Hf Hh Hd.
  destruct (clf_made_facts p Hm) as ((a & Ha) & Hst & Hfin).
  exact (clf_saved sh l fuel b1 b2 Hsh A vw C HC S1 S2 a p os rs e e0 L nf HS1 HS2 Ha Hst (Hfin Hf) Hh Hd).
Qed.
Print Assumptions C30_classifier.
Theorem C30_regressor : forall sh l fuel b1 b2, shuffle_ok sh -> forall (A : algo (mt_rnd sh l fuel b1 b2)) vw C, tsetlini_codec _ A vw C ->
  forall S1 S2, sch_ok S1 -> sch_ok S2 -> forall p os rs e e0 nf, reg_made p -> finite_C1 p ->
  reg_history S1 A vw p os rs e -> reg_dims_of os rs = Some nf ->
  exists j e', reg_to_json C S1 e = Ret j /\ reg_from_json C S2 e0 (reparse j) = Ret e' /\ equal_state e e' /\
    forall more, Forall (reg_op_phys A vw) more -> orel same_results (reg_run S1 A e more) (reg_run S2 A e' more).
Proof.
  intros sh l fuel b1 b2 Hsh A vw C HC S1 S2 HS1 HS2 p os rs e e0 nf Hm Hf Hh Hd.
  destruct (reg_made_facts p Hm) as ((a & Ha) & Hst & Hfin).
  exact (reg_saved sh l fuel b1 b2 Hsh A vw C HC S1 S2 a p os rs e e0 nf HS1 HS2 Ha Hst (Hfin Hf) Hh Hd).
Qed.
Print Assumptions C30_regressor.
(** without the restriction it fails: an infinite (or NaN) loss_fn_C1, which the factories accept, is written as null, and every
    further training call that the original accepts throws std::bad_variant_access *)
Theorem C30_infinite_loss_C1_refuted : forall sh l fuel b1 b2, shuffle_ok sh ->
  forall (A : algo (mt_rnd sh l fuel b1 b2)) vw C, tsetlini_codec _ A vw C ->
  forall S1 S2, sch_ok S1 -> forall p os rs e e0 nf x, reg_made p -> p !! "loss_fn_C1"%string = Some (PReal x) -> is_finite_sf x = false ->
  reg_history S1 A vw p os rs e -> reg_dims_of os rs = Some nf ->
  exists j e', reg_to_json C S1 e = Ret j /\ reg_from_json C S2 e0 (reparse j) = Ret e' /\ e_ta e' = e_ta e /\
    e_params e' !! "loss_fn_C1"%string = Some PNone /\
    forall X y ep e1, reg_partial_fit S1 A e X y ep = Ret (S_OK, e1) -> reg_partial_fit S2 A e' X y ep = Throw BadVariant.
Proof.
  intros sh l fuel b1 b2 Hsh A vw C HC S1 S2 HS1 p os rs e e0 nf x Hm Hx Hinf Hh Hd.
  destruct (reg_made_facts p Hm) as ((a & Ha) & Hst & _).
  exact (reg_saved_infinite sh l fuel b1 b2 Hsh A vw C HC S1 S2 a p os rs e e0 nf x HS1 Ha Hst Hx Hinf Hh Hd).
Qed.
Print Assumptions C30_infinite_loss_C1_refuted.

(** the hypotheses are met: a bitwise classifier after ten epochs, a classic regressor, one with an infinite coefficient *)
Lemma n1_made : clf_made n1_params /\ finite_C1 n1_params.
Proof.
  split; [exists 4, 99; left; exists n1_args; split; [by constructor|vm_compute; reflexivity]|]. intros x HH. vm_compute in HH. discriminate HH.
Qed.
Example C30_example : exists e, tsetlini_codec mt42 BM (bw_view mt42) bitwise_codec /\ clf_made n1_params /\ finite_C1 n1_params /\
  clf_history toy_sch BM (bw_view mt42) n1_params n1_ops [CRStatus S_OK] e /\ clf_dims_of n1_ops [CRStatus S_OK] = Some (2%nat, 3%nat).
Proof.
  destruct n1_broken as (e & H & _). exists e. split; [constructor|]. split; [apply n1_made|]. split; [apply n1_made|]. split; [exact H|reflexivity].
Qed.
Definition inf_args : reg_args := RegArgs 4 10 (f32_of_Z 3) 5 true 7 true 2 false "auto" 16 "MSE" (S754_infinity false) false (Some 42).
Definition inf_params : params := params_of (make_regressor_params_from_args 4 99 inf_args).
Notation CM := (classic mt42).
Lemma toy_reg_made : reg_made toy_reg_params /\ finite_C1 toy_reg_params.
Proof.
  split; [exists 4, 99; left; exists toy_reg_args; split; [apply toy_reg_typed|vm_compute; reflexivity]|].
  intros x HH. vm_compute in HH. injection HH as <-. done.
Qed.
Lemma inf_made : reg_made inf_params.
Proof. exists 4, 99; left; exists inf_args; split; [by constructor|vm_compute; reflexivity]. Qed.
Definition mt_reg_ops : list (reg_op CM) := [RFit CM toy_X toy_ry 2].
Lemma mt_phys os : Forall (reg_op_phys CM (cl_view mt42)) os.
Proof. apply Forall_true. by intros []; cbn; try apply Forall_true. Qed.
Example C30_example_regressor : exists e, reg_made toy_reg_params /\ finite_C1 toy_reg_params /\
  reg_history toy_sch CM (cl_view mt42) toy_reg_params mt_reg_ops [RRStatus S_OK] e /\ reg_dims_of mt_reg_ops [RRStatus S_OK] = Some 3%nat.
Proof.
  destruct (results_ret (reg_run toy_sch CM (construct toy_sch CM toy_reg_params) mt_reg_ops) [RRStatus S_OK]) as [e E]; [vm_compute; reflexivity|].
  exists e. split; [exact (proj1 toy_reg_made)|]. split; [exact (proj2 toy_reg_made)|]. split; [|reflexivity]. split; [apply mt_phys|exact E].
Qed.
Example C30_example_infinite : exists e e1, reg_made inf_params /\ inf_params !! "loss_fn_C1"%string = Some (PReal (S754_infinity false)) /\
  reg_history toy_sch CM (cl_view mt42) inf_params mt_reg_ops [RRStatus S_OK] e /\ reg_dims_of mt_reg_ops [RRStatus S_OK] = Some 3%nat /\
  reg_partial_fit toy_sch CM e toy_X toy_ry 1 = Ret (S_OK, e1).
Proof.
  destruct (probe_ret (reg_run toy_sch CM (construct toy_sch CM inf_params) mt_reg_ops)
    (fun e => probe (reg_partial_fit toy_sch CM e toy_X toy_ry 1) (fun _ => tt)) [RRStatus S_OK] (Some (S_OK, tt))) as (e & E & Q); [vm_compute; reflexivity|].
  apply probe_ret in Q as (e1 & Q & _). exists e, e1.
  split; [exact inf_made|]. split; [vm_compute; reflexivity|]. split; [split; [apply mt_phys|exact E]|]. split; [reflexivity|exact Q].
Qed.

(** ** C31: an estimator that was never fitted cannot be loaded: reading back what save wrote is undefined behaviour *)
Theorem C31_unfitted_classifier_refuted : forall sh l fuel b1 b2, shuffle_ok sh ->
  forall (A : algo (mt_rnd sh l fuel b1 b2)) vw C, tsetlini_codec _ A vw C -> forall S1 S2, sch_ok S1 -> forall p os rs e e0,
  clf_made p -> clf_history S1 A vw p os rs e -> clf_dims_of os rs = None ->
  exists j, clf_to_json C S1 e = Ret j /\ clf_from_json C S2 e0 (reparse j) = UB OutOfBounds.
Proof.
  intros sh l fuel b1 b2 Hsh A vw C HC S1 S2 HS1 p os rs e e0 Hm Hh Hd. destruct (clf_made_facts p Hm) as ((a & Ha) & _).
  exact (clf_unfitted_lost sh l fuel b1 b2 Hsh A vw C HC S1 S2 a p os rs e e0 HS1 Ha Hh Hd).
Qed.
Print Assumptions C31_unfitted_classifier_refuted.
Theorem C31_unfitted_regressor_refuted : forall sh l fuel b1 b2, shuffle_ok sh ->
  forall (A : algo (mt_rnd sh l fuel b1 b2)) vw C, tsetlini_codec _ A vw C -> forall S1 S2, sch_ok S1 -> forall p os rs e e0,
  reg_made p -> reg_history S1 A vw p os rs e -> reg_dims_of os rs = None ->
  exists j, reg_to_json C S1 e = Ret j /\ reg_from_json C S2 e0 (reparse j) = UB OutOfBounds.
Proof.
  intros sh l fuel b1 b2 Hsh A vw C HC S1 S2 HS1 p os rs e e0 Hm Hh Hd. destruct (reg_made_facts p Hm) as ((a & Ha) & _).
  exact (reg_unfitted_lost sh l fuel b1 b2 Hsh A vw C HC S1 S2 a p os rs e e0 HS1 Ha Hh Hd).
Qed.
Print Assumptions C31_unfitted_regressor_refuted.
(** the hypotheses are met by a new estimator and by one that has only rejected calls behind it *)
Example C31_example : exists e, clf_made n1_params /\
  clf_history toy_sch CM (cl_view mt42) n1_params [CFit CM [] [] 0 3; CPredict CM toy_X]
    [CRStatus S_VALUE_ERROR; CRLabels (Left S_NOT_FITTED_ERROR)] e /\
  clf_dims_of [CFit CM [] [] 0 3; CPredict CM toy_X] [CRStatus S_VALUE_ERROR; CRLabels (Left S_NOT_FITTED_ERROR)] = None.
Proof.
  destruct (results_ret (clf_run toy_sch CM (construct toy_sch CM n1_params) [CFit CM [] [] 0 3; CPredict CM toy_X])
    [CRStatus S_VALUE_ERROR; CRLabels (Left S_NOT_FITTED_ERROR)]) as [e E]; [vm_compute; reflexivity|].
  exists e. split; [apply n1_made|]. split; [|reflexivity]. split; [|exact E]. clear E. by repeat constructor.
Qed.
