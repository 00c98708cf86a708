(** * Property theorems about the JSON parameter factories: C33, C34.
    Reading guide: a document is what json::parse makes of the text (None when it fails); [jobject ms] is the object whose text has the
    members [ms], in that order.  [documented_keys], [denotes], [setting], [clf_settings], [wrong_type], ... are in JsonSpec.v,
    [clf_documented]/[reg_documented] in ParamSpec.v; [clf_created a p] is the hypothesis under which the other property files
    speak about estimators made from a parameter set. *)
From Verif Require Import Base Floats FloatBase Params ParamFacts Reach Json JsonSpec JsonFacts JsonProps ParamSpec JsonFloat.
From Coq Require Import Reals.
From Flocq Require Import Core BinarySingleNaN.
From Coq Require Import Permutation.
From stdpp Require Import list.
Local Open Scope Z_scope.

(** ** C33: an object with correctly typed members makes the classifier its settings describe: accepted iff the settings satisfy the
    documented constraints, and then with exactly the parameters the argument factory gives for those settings *)
Theorem C33_classifier_document : forall hw rd ms, (forall k v, last_member ms k v -> correct k v) ->
  exists boost a, clf_settings ms boost a /\ clf_typed a /\
  ((clf_documented a /\ (boost = 0 \/ boost = 1) /\
    exists p p', make_classifier_params_from_json hw rd (Some (jobject ms)) = Ret (Right p) /\
      make_classifier_params_from_args hw rd a = Ret (Right p') /\ (forall k, k ∈ clf_keys -> p !! k = p' !! k) /\
      clf_created (clf_norm hw rd a) p) \/
   (~ (clf_documented a /\ (boost = 0 \/ boost = 1)) /\ make_classifier_params_from_json hw rd (Some (jobject ms)) = Ret (Left S_BAD_JSON))).
Proof. exact clf_document. Qed.
Print Assumptions C33_classifier_document.
Theorem C33_regressor_document : forall hw rd ms, (forall k v, last_member ms k v -> correct k v) ->
  exists boost a, reg_settings ms boost a /\ reg_typed a /\
  ((reg_documented a /\ (boost = 0 \/ boost = 1) /\
    exists p p', make_regressor_params_from_json hw rd (Some (jobject ms)) = Ret (Right p) /\
      make_regressor_params_from_args hw rd a = Ret (Right p') /\ (forall k, k ∈ reg_keys -> p !! k = p' !! k) /\
      reg_created (reg_norm hw rd a) p) \/
   (~ (reg_documented a /\ (boost = 0 \/ boost = 1)) /\ make_regressor_params_from_json hw rd (Some (jobject ms)) = Ret (Left S_BAD_JSON))).
Proof. exact reg_document. Qed.
Print Assumptions C33_regressor_document.
(** the real number a member denotes is stored as the nearest float: nearest to the double for a number with a fraction or exponent,
    nearest to the integer otherwise; infinities and NaN are kept *)
Theorem C33_reals_are_rounded :
  (forall x, is_finite_sf x = true -> nearest_float (SF2R radix2 x) (sign_SF x) (f32_of_f64 x)) /\
  (forall x, is_finite_sf x = false -> f32_of_f64 x = x) /\
  (forall z, nearest_float (IZR z) (z <? 0) (f32_of_Z z)).
Proof. split; [exact real_nearest|]. split; [|exact integer_nearest]. intros x Hx. by destruct x. Qed.
Print Assumptions C33_reals_are_rounded.
(** -3.9 as a double and as a float; 1e300 is no float *)
Example C33_rounding_example : f32_of_f64 (S754_finite true 8782019273372467 (-51)) = S754_finite true 16357786 (-22) /\
  f32_of_f64 (S754_finite false 6725324226394268 944) = S754_infinity false.
Proof. split; vm_compute; reflexivity. Qed.

(** an unknown key, a text that does not parse, a document that is not an object *)
Theorem C33_unknown_key : forall hw rd ms k v, (k, v) ∈ ms -> ~ known k -> (forall k' v', last_member ms k' v' -> known k' -> correct k' v') ->
  make_classifier_params_from_json hw rd (Some (jobject ms)) = Ret (Left S_BAD_JSON) /\
  make_regressor_params_from_json hw rd (Some (jobject ms)) = Ret (Left S_BAD_JSON).
Proof.
  intros hw rd ms k v H1 H2 H3. rewrite jobject_members. split.
  - apply (doc_unknown hw rd (clf_doc hw rd)); eauto.
  - apply (doc_unknown hw rd (reg_doc hw rd)); eauto.
Qed.
Print Assumptions C33_unknown_key.
Theorem C33_not_an_object : forall hw rd doc, (forall l, doc <> Some (JObj l)) ->
  make_classifier_params_from_json hw rd doc = Ret (Left S_BAD_JSON) /\ make_regressor_params_from_json hw rd doc = Ret (Left S_BAD_JSON).
Proof. intros hw rd [[]|] H; try done. by destruct (H l). Qed.
Print Assumptions C33_not_an_object.
(** the order of the members is irrelevant *)
Theorem C33_key_order : forall hw rd ms ms', NoDup (map fst ms) -> Permutation ms ms' ->
  make_classifier_params_from_json hw rd (Some (jobject ms)) = make_classifier_params_from_json hw rd (Some (jobject ms')) /\
  make_regressor_params_from_json hw rd (Some (jobject ms)) = make_regressor_params_from_json hw rd (Some (jobject ms')).
Proof. intros hw rd ms ms' Hn Hp. by rewrite (jobject_perm ms ms' Hn Hp). Qed.
Print Assumptions C33_key_order.

Definition sample_members : list (string * json) :=
  [("threshold", JUns 25); ("s", JFlt (S754_finite false 3 (-1))); ("weighted", JBool true); ("counting_type", JStr "int16");
   ("random_state", JUns 42); ("number_of_clauses_per_label", JUns 8); ("n_jobs", JUns 2)]%string.
Example C33_example : (forall k v, last_member sample_members k v -> correct k v) /\
  exists p, make_classifier_params_from_json 4 7 (Some (jobject sample_members)) = Ret (Right p) /\
    p !! "threshold"%string = Some (PInt 25) /\ p !! "number_of_states"%string = Some (PInt 100) /\
    p !! "random_state"%string = Some (PSeed 42).
Proof.
  split.
  - intros k v H. apply last_member_value, last_value_mem in H. unfold sample_members in H. rewrite !elem_of_cons, elem_of_nil in H.
    unfold correct. repeat (destruct H as [[= -> ->]|H]; [eexists; split; [apply key_kind_documented; reflexivity|]; left; eexists; constructor; done|]). done.
  - eexists. split; [vm_compute; reflexivity|]. vm_compute. done.
Qed.
Example C33_example_rejected :
  make_classifier_params_from_json 4 7 (Some (jobject (("number_of_states", JInt 0) :: sample_members)%string)) = Ret (Left S_BAD_JSON) /\
  ~ known "thresold" /\
  make_classifier_params_from_json 4 7 (Some (jobject (("thresold", JInt 1) :: sample_members)%string)) = Ret (Left S_BAD_JSON) /\
  make_classifier_params_from_json 4 7 None = Ret (Left S_BAD_JSON).
Proof.
  split; [vm_compute; done|]. split; [|split; [vm_compute; done|done]]. intros [t H]. apply key_kind_documented in H. discriminate H.
Qed.

(** ** C34: malformed members do not always give a status.  The factories throw exactly when the first unusable member (in the order
    of the keys) is a known key with a value that cannot be converted; a fraction out of the range of an integer is undefined
    behaviour; in every other case they return. *)
Theorem C34_when_it_throws_refuted : forall hw rd ms e,
  (make_classifier_params_from_json hw rd (Some (jobject ms)) = Throw e <-> e = JsonTypeError /\ first_problem ms wrong_type) /\
  (make_regressor_params_from_json hw rd (Some (jobject ms)) = Throw e <-> e = JsonTypeError /\ first_problem ms wrong_type).
Proof.
  intros hw rd ms e. rewrite jobject_members. split.
  - apply (doc_throws_iff hw rd (clf_doc hw rd)). by left.
  - apply (doc_throws_iff hw rd (reg_doc hw rd)). by right.
Qed.
Print Assumptions C34_when_it_throws_refuted.
Theorem C34_when_it_is_undefined_refuted : forall hw rd ms u,
  (make_classifier_params_from_json hw rd (Some (jobject ms)) = UB u <-> u = FloatToInt /\ first_problem ms unrepresentable) /\
  (make_regressor_params_from_json hw rd (Some (jobject ms)) = UB u <-> u = FloatToInt /\ first_problem ms unrepresentable).
Proof.
  intros hw rd ms u. rewrite jobject_members. split.
  - apply (doc_throws_iff hw rd (clf_doc hw rd)). by left.
  - apply (doc_throws_iff hw rd (reg_doc hw rd)). by right.
Qed.
Print Assumptions C34_when_it_is_undefined_refuted.
Theorem C34_otherwise_it_returns : forall hw rd ms, ~ first_problem ms wrong_type -> ~ first_problem ms unrepresentable ->
  (exists r, make_classifier_params_from_json hw rd (Some (jobject ms)) = Ret r) /\
  (exists r, make_regressor_params_from_json hw rd (Some (jobject ms)) = Ret r).
Proof.
  intros hw rd ms H1 H2. rewrite jobject_members. split.
  - destruct (doc_throws_iff hw rd (clf_doc hw rd) ms (or_introl eq_refl)) as (_ & _ & [?|[?|H]]); tauto.
  - destruct (doc_throws_iff hw rd (reg_doc hw rd) ms (or_intror eq_refl)) as (_ & _ & [?|[?|H]]); tauto.
Qed.
Print Assumptions C34_otherwise_it_returns.
Example C34_example :
  make_classifier_params_from_json 4 7 (Some (jobject [("s", JStr "1.5"); ("verbose", JBool true)]%string)) = Throw JsonTypeError /\
  make_classifier_params_from_json 4 7 (Some (jobject [("s", JStr "1.5"); ("a", JNull)]%string)) = Ret (Left S_BAD_JSON) /\
  make_classifier_params_from_json 4 7 (Some (jobject [("verbose", JUns 1)]%string)) = Throw JsonTypeError /\
  make_classifier_params_from_json 4 7 (Some (jobject [("threshold", JFlt (S754_finite false 1 40))]%string)) = UB FloatToInt.
Proof. split; [|split; [|split]]; vm_compute; reflexivity. Qed.
Example C34_example_problem : first_problem [("s", JStr "1.5"); ("verbose", JBool true)]%string wrong_type.
Proof.
  apply (C34_when_it_throws_refuted 4 7 _ JsonTypeError). vm_compute. reflexivity.
Qed.
