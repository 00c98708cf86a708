(** * Property theorems about creating estimators from arguments: C32, C35, C49, C53.
    Reading guide: [clf_args]/[reg_args] are the arguments of the factories (Params.v); [clf_typed] says they are values of their C++ types;
    [hw] is std::thread::hardware_concurrency(), [rd] what std::random_device yields. *)
From Verif Require Import Base Containers ContainersFacts Floats Algo Params ParamFacts Estimator Reach PropFacts LawsBitwise FloatFacts ParamSpec KwFacts Toy ToyFacts.
From Coq Require Import Permutation Reals Lra.
From stdpp Require Import list.
Local Open Scope Z_scope.

(** ** C32 *)
Theorem C32_classifier_arguments : forall hw rd a, clf_typed a ->
  (clf_documented a /\ exists p, make_classifier_params_from_args hw rd a = Ret (Right p)) \/
  (~ clf_documented a /\ make_classifier_params_from_args hw rd a = Ret (Left S_BAD_JSON)).
Proof.
  intros hw rd a Ht. pose proof (clf_documented_iff a Ht) as E.
  destruct (clf_factory_iff hw rd a Ht) as [(H & p & Hp & _)|[H Hp]]; [left|right]; rewrite E; eauto.
Qed.
Print Assumptions C32_classifier_arguments.
Theorem C32_regressor_arguments : forall hw rd a, reg_typed a ->
  (reg_documented a /\ exists p, make_regressor_params_from_args hw rd a = Ret (Right p)) \/
  (~ reg_documented a /\ make_regressor_params_from_args hw rd a = Ret (Left S_BAD_JSON)).
Proof.
  intros hw rd a Ht. pose proof (reg_documented_iff a Ht) as E.
  destruct (reg_factory_iff hw rd a Ht) as [(H & p & Hp & _)|[H Hp]]; [left|right]; rewrite E; eauto.
Qed.
Print Assumptions C32_regressor_arguments.
(** in a returned set every user value is kept, n_jobs is at least 1 and random_state is a seed *)
Theorem C32_classifier_values_kept : forall hw rd a p, clf_typed a -> make_classifier_params_from_args hw rd a = Ret (Right p) ->
  p !! "number_of_clauses_per_label"%string = Some (PInt (ca_clauses a)) /\
  p !! "number_of_states"%string = Some (PInt (ca_states a)) /\
  p !! "s"%string = Some (PReal (ca_s a)) /\
  p !! "threshold"%string = Some (PInt (ca_threshold a)) /\
  p !! "weighted"%string = Some (PBool (ca_weighted a)) /\
  p !! "max_weight"%string = Some (PInt (ca_max_weight a)) /\
  p !! "boost_true_positive_feedback"%string = Some (PInt (if ca_boost a then 1 else 0)) /\
  p !! "verbose"%string = Some (PBool (ca_verbose a)) /\
  p !! "counting_type"%string = Some (PStr (ca_counting a)) /\
  p !! "clause_output_tile_size"%string = Some (PInt (ca_tile a)) /\
  (1 <= ca_n_jobs a -> p !! "n_jobs"%string = Some (PInt (ca_n_jobs a))) /\
  (exists n, 1 <= n <= int_max /\ p !! "n_jobs"%string = Some (PInt n)) /\
  (forall z, ca_seed a = Some z -> p !! "random_state"%string = Some (PSeed z)) /\
  (exists z, 0 <= z < 4294967296 /\ p !! "random_state"%string = Some (PSeed z)).
Proof.
  intros hw rd a p Ht Hp. destruct (clf_factory_preserves hw rd a p Ht Hp) as (H & H'). do 10 (split; [rewrite H by done; done|]). exact H'.
Qed.
Print Assumptions C32_classifier_values_kept.
Theorem C32_regressor_values_kept : forall hw rd a p, reg_typed a -> make_regressor_params_from_args hw rd a = Ret (Right p) ->
  p !! "number_of_regressor_clauses"%string = Some (PInt (ra_clauses a)) /\
  p !! "number_of_states"%string = Some (PInt (ra_states a)) /\
  p !! "s"%string = Some (PReal (ra_s a)) /\
  p !! "threshold"%string = Some (PInt (ra_threshold a)) /\
  p !! "weighted"%string = Some (PBool (ra_weighted a)) /\
  p !! "max_weight"%string = Some (PInt (ra_max_weight a)) /\
  p !! "boost_true_positive_feedback"%string = Some (PInt (if ra_boost a then 1 else 0)) /\
  p !! "verbose"%string = Some (PBool (ra_verbose a)) /\
  p !! "counting_type"%string = Some (PStr (ra_counting a)) /\
  p !! "clause_output_tile_size"%string = Some (PInt (ra_tile a)) /\
  p !! "loss_fn"%string = Some (PStr (ra_loss a)) /\
  p !! "loss_fn_C1"%string = Some (PReal (ra_C1 a)) /\
  p !! "box_muller"%string = Some (PBool (ra_box_muller a)) /\
  (1 <= ra_n_jobs a -> p !! "n_jobs"%string = Some (PInt (ra_n_jobs a))) /\
  (exists n, 1 <= n <= int_max /\ p !! "n_jobs"%string = Some (PInt n)) /\
  (forall z, ra_seed a = Some z -> p !! "random_state"%string = Some (PSeed z)) /\
  (exists z, 0 <= z < 4294967296 /\ p !! "random_state"%string = Some (PSeed z)).
Proof.
  intros hw rd a p Ht Hp. destruct (reg_factory_preserves hw rd a p Ht Hp) as (H & H'). do 13 (split; [rewrite H by done; done|]). exact H'.
Qed.
Print Assumptions C32_regressor_values_kept.
Example C32_example : clf_typed toy_clf_args /\ (exists p, make_classifier_params_from_args 4 7 toy_clf_args = Ret (Right p)) /\
  reg_typed toy_reg_args /\ (exists p, make_regressor_params_from_args 4 7 toy_reg_args = Ret (Right p)) /\
  let bad := ClfArgs 6 100 (f32_of_Z 2) 15 false 1 false 1 false "auto" 16 None in
  clf_typed bad /\ make_classifier_params_from_args 4 7 bad = Ret (Left S_BAD_JSON).
Proof.
  split; [by constructor|]. split; [eexists; vm_compute; reflexivity|]. split; [by constructor|]. split; [eexists; vm_compute; reflexivity|].
  split; [by constructor|vm_compute; reflexivity].
Qed.

(** ** C35: [passed args K d v]: v is the value passed as argument of type K, or the default d when none was passed *)
Theorem C35_classifier_keywords : forall hw rd args, kw_compiles clf_accepts args ->
  (exists a, clf_passed args a /\ make_classifier hw rd args = make_classifier_params_from_args hw rd a) /\
  (forall a, clf_passed args a -> make_classifier hw rd args = make_classifier_params_from_args hw rd a) /\
  (forall args', Permutation args args' -> make_classifier hw rd args' = make_classifier hw rd args).
Proof.
  intros hw rd args [_ Hn]. split; [exists (clf_kw_args args); split; [apply clf_kw_passed|done]|]. split.
  - intros a Ha. by rewrite (clf_passed_unique args a Hn Ha).
  - intros args' Hp. unfold make_classifier. by rewrite (clf_kw_perm args args' Hn Hp).
Qed.
Print Assumptions C35_classifier_keywords.
Theorem C35_regressor_keywords : forall hw rd args, kw_compiles reg_accepts args ->
  (exists a, reg_passed args a /\ make_regressor hw rd args = make_regressor_params_from_args hw rd a) /\
  (forall a, reg_passed args a -> make_regressor hw rd args = make_regressor_params_from_args hw rd a) /\
  (forall args', Permutation args args' -> make_regressor hw rd args' = make_regressor hw rd args).
Proof.
  intros hw rd args [_ Hn]. split; [exists (reg_kw_args args); split; [apply reg_kw_passed|done]|]. split.
  - intros a Ha. by rewrite (reg_passed_unique args a Hn Ha).
  - intros args' Hp. unfold make_regressor. by rewrite (reg_kw_perm args args' Hn Hp).
Qed.
Print Assumptions C35_regressor_keywords.
(** fit and partial_fit: the number of labels must be given, the number of epochs defaults to 100 *)
Theorem C35_fit_keywords : forall args, fit_compiles args ->
  KMaxLabels (fit_kw_args args).1 ∈ args /\ passed args KEpochs 100%nat (fit_kw_args args).2 /\
  forall args', Permutation args args' -> fit_kw_args args' = fit_kw_args args.
Proof.
  intros args [[_ Hn] Hl]. split; [by apply p_labels|]. split; [apply p_epochs|]. intros args' Hp. by rewrite (fit_kw_perm args args' Hn Hp).
Qed.
Print Assumptions C35_fit_keywords.
Example C35_example : let args := [KSeed 3; KStates 50; KClfClauses 8] in
  kw_compiles clf_accepts args /\ make_classifier 4 7 args = make_classifier 4 7 [KClfClauses 8; KSeed 3; KStates 50] /\
  (exists p, make_classifier 4 7 args = Ret (Right p)) /\ fit_compiles [KEpochs 5; KMaxLabels 3].
Proof.
  split; [split; [repeat constructor; set_solver|repeat constructor; set_solver]|]. split; [vm_compute; reflexivity|].
  split; [eexists; vm_compute; reflexivity|]. split; [split; repeat constructor; set_solver|set_solver].
Qed.

(** ** C49 *)
Theorem C49_padding_check : forall v, bits_phys v ->
  exists b, bitwise_pad v = Ret b /\ (b = true <-> forall q, (bv_len v <= q)%nat -> bv_bit 64 v q = false).
Proof. exact bits_pad_spec. Qed.
Print Assumptions C49_padding_check.
(** ... and with a surplus block the check shifts by a negative amount *)
Theorem C49_surplus_blocks_refuted : forall v, (64 * length (bv_blocks v) > bv_len v + 64)%nat -> bitwise_pad v = UB BadShift.
Proof.
  intros v H. unfold bitwise_pad, bv_capacity_blocks. rewrite (proj2 (Z.eqb_neq _ 0)) by lia. cbn [negb].
  rewrite (proj2 (Z.ltb_lt _ 0)) by lia. reflexivity.
Qed.
Print Assumptions C49_surplus_blocks_refuted.
Example C49_example : exists v w, bits_phys v /\ bits_phys w /\ bitwise_pad v = Ret true /\ bitwise_pad w = Ret false.
Proof.
  exists (BV 3 [5%N]), (BV 3 [9%N]).
  assert (forall k, (N.of_nat 64 <= k)%N -> (3 < k)%N) as H by (intros; lia).
  split; [split; [reflexivity|]; apply Forall_singleton; intros k Hk; apply N.bits_above_log2; specialize (H k Hk); cbn; lia|].
  split; [split; [reflexivity|]; apply Forall_singleton; intros k Hk; apply N.bits_above_log2; specialize (H k Hk); cbn; lia|].
  split; vm_compute; reflexivity.
Qed.

(** ** C53: a factory moves its string arguments out of the caller's variables unless they are const: with any std::string that leaves
    behind something that is not a counting type (all known ones leave an empty string), using the variable again makes the
    factory fail.  Constants, numbers and flags are left alone. *)
Theorem C53_second_classifier_refuted : forall moved hw rd vars s p, ~ counting_known (moved s) ->
  kw_compiles clf_accepts (map fst vars) -> (KCounting s, false) ∈ vars ->
  call_make_classifier moved hw rd vars = (Ret (Right p), (call_make_classifier moved hw rd vars).2) ->
  (call_make_classifier moved hw rd (call_make_classifier moved hw rd vars).2).1 = Ret (Left S_BAD_JSON).
Proof. intros moved hw rd vars s p Hm [_ Hn] Hs _. exact (second_call_rejected moved hw rd vars s Hm Hn Hs). Qed.
Print Assumptions C53_second_classifier_refuted.
Theorem C53_second_regressor_refuted : forall moved hw rd vars s p, ~ counting_known (moved s) -> ~ loss_known (moved s) ->
  kw_compiles reg_accepts (map fst vars) -> (KCounting s, false) ∈ vars \/ (KLoss s, false) ∈ vars ->
  call_make_regressor moved hw rd vars = (Ret (Right p), (call_make_regressor moved hw rd vars).2) ->
  (call_make_regressor moved hw rd (call_make_regressor moved hw rd vars).2).1 = Ret (Left S_BAD_JSON).
Proof.
  intros moved hw rd vars s p Hm Hm' [_ Hn] [Hs|Hs] _;
    [exact (second_call_rejected_reg moved hw rd vars s Hm Hn Hs)|exact (second_call_rejected_loss moved hw rd vars s Hm' Hn Hs)].
Qed.
Print Assumptions C53_second_regressor_refuted.
Theorem C53_other_variables_kept : forall moved hw rd vars k c, (k, c) ∈ vars -> c = true \/ (forall s, k <> KCounting s /\ k <> KLoss s) ->
  (k, c) ∈ (call_make_classifier moved hw rd vars).2 /\ (k, c) ∈ (call_make_regressor moved hw rd vars).2.
Proof. intros moved hw rd vars k c H Hk. split; exact (kept_after moved vars k c H Hk). Qed.
Print Assumptions C53_other_variables_kept.
Example C53_example : let moved := fun _ : string => ""%string in let vars := [(KSeed 3, false); (KCounting "int16", false)] in
  ~ counting_known (moved "int16"%string) /\ kw_compiles clf_accepts (map fst vars) /\
  (exists p, (call_make_classifier moved 4 7 vars).1 = Ret (Right p)) /\
  (call_make_classifier moved 4 7 (call_make_classifier moved 4 7 vars).2).1 = Ret (Left S_BAD_JSON).
Proof.
  cbv zeta. split; [intros [?|[?|[?|?]]]; discriminate|]. split; [split; repeat constructor; set_solver|].
  split; [eexists; vm_compute; reflexivity|vm_compute; reflexivity].
Qed.
