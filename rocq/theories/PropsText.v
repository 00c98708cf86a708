(** * Property theorems about JSON as text: C72-C76.
    Reading guide: a text is a list of bytes.  [json_text t j] (JsonGrammar.v) is the grammar of RFC 8259 with the values texts denote,
    written without reference to the library; [stands_for t j] (TextSpec.v): [t] is a JSON text denoting [j], or one followed by a zero
    byte and anything.  [make_*_params_from_text], [clf_to_json_string], [clf_from_json_string], [clf_load_string] (TextIO.v) are the API
    functions on texts; [clf_load_string] also gives the exception and the estimator left behind.  [clf_made_text p]: the parameters came
    from the argument factory or from the text factory (TextState.v).  [reparse j] (StateJson.v) is [j] with its non-finite numbers
    replaced by null.  The rest as in PropsState.v. *)
From Verif Require Import FloatFacts.
From Verif Require Import StateProps.
From Verif Require Import TextIO JsonGrammar NumFacts DumpNum DumpProps TextFacts TextProps.
From Verif Require Import PropsState ToyTrain ToyDefects.
From Coq Require Import Permutation.
From stdpp Require Import list.
Local Open Scope Z_scope.

(** ** C72: the texts that are accepted, and what they mean *)
Theorem C72_reader : forall t, (exists j, stands_for t j /\ parse t = Ret (Some j)) \/ ((forall j, ~ stands_for t j) /\ parse t = Ret None).
Proof. exact parse_cases. Qed.
Print Assumptions C72_reader.
Theorem C72_unambiguous : forall t j1 j2, stands_for t j1 -> stands_for t j2 -> j1 = j2.
Proof. exact stands_unique. Qed.
Print Assumptions C72_unambiguous.
(** the factories: a JSON text is treated as the document it denotes (C33, C34 say how), any other text is S_BAD_JSON *)
Theorem C72_factories : forall hw rd t,
  (forall j, stands_for t j ->
    make_classifier_params_from_text hw rd t = make_classifier_params_from_json hw rd (Some j) /\
    make_regressor_params_from_text hw rd t = make_regressor_params_from_json hw rd (Some j)) /\
  ((forall j, ~ stands_for t j) ->
    make_classifier_params_from_text hw rd t = Ret (Left S_BAD_JSON) /\ make_regressor_params_from_text hw rd t = Ret (Left S_BAD_JSON)).
Proof. intros hw rd t. split; [exact (factories_stand hw rd t)|exact (factories_not hw rd t)]. Qed.
Print Assumptions C72_factories.
(** loading: a JSON text is loaded as the document it denotes (C30, C58, C59), any other text throws and leaves the estimator as it was *)
Theorem C72_loading : forall P (C : pol_codec P) S (e : est P (eS S) irng frng) t,
  (forall j, stands_for t j -> clf_load_string C S e t = clf_load C S e j /\ reg_load_string C S e t = reg_load C S e j) /\
  ((forall j, ~ stands_for t j) ->
    clf_load_string C S e t = Ret (Some JsonParseError, e) /\ reg_load_string C S e t = Ret (Some JsonParseError, e)).
Proof. intros P C S e t. split; [exact (load_stand C S e t)|exact (load_not C S e t)]. Qed.
Print Assumptions C72_loading.
(** nothing but JSON texts without a zero byte stands for anything *)
Theorem C72_without_zero : forall t j, 0 ∉ t -> stands_for t j <-> json_text t j.
Proof. exact stands_text. Qed.
Print Assumptions C72_without_zero.

(** a text with white space, escapes and an exponent; one without a value *)
Definition sample_text : list Z := text " { ""thre\u0073hold"" : 25 ,""s"":150e-2, ""weighted"": true, ""threshold"": 30, ""random_state"":42}".
Example C72_example : stands_for sample_text
    (jobject [("threshold", JUns 30); ("s", JFlt (S754_finite false 6755399441055744 (-52))); ("weighted", JBool true); ("random_state", JUns 42)]%string) /\
  (exists p, make_classifier_params_from_text 4 99 sample_text = Ret (Right p) /\ p !! "threshold"%string = Some (PInt 30)) /\
  (forall j, ~ stands_for (text "{""threshold"": 025}") j).
Proof.
  split; [apply parse_stands; vm_compute; reflexivity|].
  split; [exists (params_of (make_classifier_params_from_text 4 99 sample_text)); split; vm_compute; reflexivity|].
  assert (parse (text "{""threshold"": 025}") = Ret None) as E by (vm_compute; reflexivity). intros j Hj%parse_stands. rewrite E in Hj. discriminate Hj.
Qed.

(** ** C73: the text that is saved *)
(** Every estimator, whatever its history (fitted or not), is saved as a JSON text denoting its document; saving never throws and is
    never undefined.  Reading the text, into whatever estimator, is reading that document. *)
Theorem C73_classifier : forall sh l fuel b1 b2, shuffle_ok sh -> forall (A : algo (mt_rnd sh l fuel b1 b2)) vw C, tsetlini_codec _ A vw C ->
  forall S, sch_ok S -> forall p os rs e, clf_made_text p -> clf_history S A vw p os rs e ->
  exists j t, clf_to_json C S e = Ret j /\ clf_to_json_string C S e = Ret t /\ json_text t (reparse j).
Proof. intros sh l fuel b1 b2 Hsh A vw C HC S HS p os rs e. exact (clf_text sh l fuel b1 b2 Hsh A vw C HC S p os rs e HS). Qed.
Print Assumptions C73_classifier.
Theorem C73_regressor : forall sh l fuel b1 b2, shuffle_ok sh -> forall (A : algo (mt_rnd sh l fuel b1 b2)) vw C, tsetlini_codec _ A vw C ->
  forall S, sch_ok S -> forall p os rs e, reg_made_text p -> reg_history S A vw p os rs e ->
  exists j t, reg_to_json C S e = Ret j /\ reg_to_json_string C S e = Ret t /\ json_text t (reparse j).
Proof. intros sh l fuel b1 b2 Hsh A vw C HC S HS p os rs e. exact (reg_text sh l fuel b1 b2 Hsh A vw C HC S p os rs e HS). Qed.
Print Assumptions C73_regressor.
(** every finite double is written as a number, of at most 25 characters, that denotes exactly that double *)
Theorem C73_doubles_are_exact : forall x, SpecFloat.valid_binary 53 1024 x = true -> is_finite_sf x = true ->
  exists t, dump_float x = Ret t /\ number t (JFlt x) /\ (length t <= 25)%nat.
Proof. exact dump_float_full. Qed.
Print Assumptions C73_doubles_are_exact.

Example C73_example : exists e, clf_made_text n1_params /\
  clf_history toy_sch BM (bw_view mt42) n1_params n1_ops [CRStatus S_OK] e.
Proof.
  destruct n1_broken as (e & H & _). exists e. split; [|exact H]. exists 4, 99. left. exists n1_args. split; [by constructor|vm_compute; reflexivity].
Qed.
(** parameters made from a text *)
Example C73_example_made : clf_made_text (params_of (make_classifier_params_from_text 4 99 sample_text)).
Proof. exists 4, 99. right. exists sample_text. vm_compute. reflexivity. Qed.
Example C73_example_doubles : dump_float (S754_finite false 7205759403792794 (-56)) = Ret (text "0.1") /\
  dump_float (S754_finite true 4503599627370497 (-1074)) = Ret (text "-2.225073858507202e-308").
Proof. split; vm_compute; reflexivity. Qed.

(** ** C74: saving to a text and loading the text *)
Theorem C74_classifier : forall sh l fuel b1 b2, shuffle_ok sh -> forall (A : algo (mt_rnd sh l fuel b1 b2)) vw C, tsetlini_codec _ A vw C ->
  forall S1 S2, sch_ok S1 -> sch_ok S2 -> forall p os rs e e0 L nf, clf_made_text p -> finite_C1 p ->
  clf_history S1 A vw p os rs e -> clf_dims_of os rs = Some (L, nf) ->
  exists t e', clf_to_json_string C S1 e = Ret t /\ clf_from_json_string C S2 e0 t = Ret e' /\ equal_state e e' /\
    forall more, Forall (clf_op_phys A vw) more -> evaluates_ok S1 A vw (Some (L, nf)) e more ->
      orel same_results (clf_run S1 A e more) (clf_run S2 A e' more).
Proof.
  intros sh l fuel b1 b2 Hsh A vw C HC S1 S2 HS1 HS2 p os rs e e0 L nf Hm Hf Hh Hd.
  destruct (clf_text sh l fuel b1 b2 Hsh A vw C HC S1 p os rs e HS1 Hm Hh) as (j & t & Ej & Et & Ht).
  destruct (C30_classifier sh l fuel b1 b2 Hsh A vw C HC S1 S2 HS1 HS2 p os rs e e0 L nf (clf_made_text_made p Hm) Hf Hh Hd) as (j' & e' & Ej' & El & H).
  exists t, e'. split; [exact Et|]. split; [|exact H]. pose proof (eq_trans (eq_sym Ej) Ej') as Eq. injection Eq as <-.
  exact (eq_trans (proj1 (from_stand C S2 e0 t _ (text_stands _ _ Ht))) El).
Qed.
Print Assumptions C74_classifier.
Theorem C74_regressor : forall sh l fuel b1 b2, shuffle_ok sh -> forall (A : algo (mt_rnd sh l fuel b1 b2)) vw C, tsetlini_codec _ A vw C ->
  forall S1 S2, sch_ok S1 -> sch_ok S2 -> forall p os rs e e0 nf, reg_made_text p -> finite_C1 p ->
  reg_history S1 A vw p os rs e -> reg_dims_of os rs = Some nf ->
  exists t e', reg_to_json_string C S1 e = Ret t /\ reg_from_json_string C S2 e0 t = Ret e' /\ equal_state e e' /\
    forall more, Forall (reg_op_phys A vw) more -> orel same_results (reg_run S1 A e more) (reg_run S2 A e' more).
Proof.
  intros sh l fuel b1 b2 Hsh A vw C HC S1 S2 HS1 HS2 p os rs e e0 nf Hm Hf Hh Hd.
  destruct (reg_text sh l fuel b1 b2 Hsh A vw C HC S1 p os rs e HS1 Hm Hh) as (j & t & Ej & Et & Ht).
  destruct (C30_regressor sh l fuel b1 b2 Hsh A vw C HC S1 S2 HS1 HS2 p os rs e e0 nf (reg_made_text_made p Hm) Hf Hh Hd) as (j' & e' & Ej' & El & H).
  exists t, e'. split; [exact Et|]. split; [|exact H]. pose proof (eq_trans (eq_sym Ej) Ej') as Eq. injection Eq as <-.
  exact (eq_trans (proj2 (from_stand C S2 e0 t _ (text_stands _ _ Ht))) El).
Qed.
Print Assumptions C74_regressor.
(** an estimator that was never fitted is saved as a text that cannot be loaded (C31) *)
Theorem C74_unfitted_refuted : forall sh l fuel b1 b2, shuffle_ok sh -> forall (A : algo (mt_rnd sh l fuel b1 b2)) vw C, tsetlini_codec _ A vw C ->
  forall S1 S2, sch_ok S1 -> forall p os rs e e0, clf_made_text p -> clf_history S1 A vw p os rs e -> clf_dims_of os rs = None ->
  exists t, clf_to_json_string C S1 e = Ret t /\ clf_from_json_string C S2 e0 t = UB OutOfBounds.
Proof.
  intros sh l fuel b1 b2 Hsh A vw C HC S1 S2 HS1 p os rs e e0 Hm Hh Hd.
  destruct (clf_text sh l fuel b1 b2 Hsh A vw C HC S1 p os rs e HS1 Hm Hh) as (j & t & Ej & Et & Ht).
  destruct (C31_unfitted_classifier_refuted sh l fuel b1 b2 Hsh A vw C HC S1 S2 HS1 p os rs e e0 (clf_made_text_made p Hm) Hh Hd) as (j' & Ej' & El).
  exists t. split; [exact Et|]. pose proof (eq_trans (eq_sym Ej) Ej') as Eq. injection Eq as <-.
  exact (eq_trans (proj1 (from_stand C S2 e0 t _ (text_stands _ _ Ht))) El).
Qed.
Print Assumptions C74_unfitted_refuted.
(** the hypotheses are met by C30_example and C31_example: those parameters came from arguments *)
Example C74_example : clf_made_text n1_params /\ finite_C1 n1_params /\ reg_made_text toy_reg_params /\ finite_C1 toy_reg_params.
Proof.
  split; [exists 4, 99; left; exists n1_args; split; [by constructor|vm_compute; reflexivity]|]. split; [apply n1_made|].
  split; [exists 4, 99; left; exists toy_reg_args; split; [apply toy_reg_typed|vm_compute; reflexivity]|apply toy_reg_made].
Qed.

(** ** C75: only what a text denotes matters *)
Theorem C75_same_value : forall t1 t2 j, json_text t1 j -> json_text t2 j ->
  (forall hw rd, make_classifier_params_from_text hw rd t1 = make_classifier_params_from_text hw rd t2 /\
    make_regressor_params_from_text hw rd t1 = make_regressor_params_from_text hw rd t2) /\
  (forall P (C : pol_codec P) S (e : est P (eS S) irng frng), clf_load_string C S e t1 = clf_load_string C S e t2 /\
    reg_load_string C S e t1 = reg_load_string C S e t2).
Proof. exact same_value. Qed.
Print Assumptions C75_same_value.
(** white space around the text and a byte order mark in front of it *)
Theorem C75_padding : forall t j w1 w2, json_text t j -> white w1 -> white w2 -> (forall t', t <> [239; 187; 191] ++ t') ->
  json_text (w1 ++ t ++ w2) j /\ json_text ([239; 187; 191] ++ t) j.
Proof. intros t j w1 w2 H H1 H2 Hn. exact (conj (padded t j w1 w2 H H1 H2 Hn) (marked t j H Hn)). Qed.
Print Assumptions C75_padding.
(** the order of the members of an object *)
Theorem C75_member_order : forall t1 t2 ms1 ms2, object_members t1 ms1 -> object_members t2 ms2 -> NoDup (map fst ms1) -> Permutation ms1 ms2 ->
  exists j, json_text (123 :: t1 ++ [125]) j /\ json_text (123 :: t2 ++ [125]) j.
Proof. exact member_order. Qed.
Print Assumptions C75_member_order.

(** two orders of the same members, with and without white space *)
Lemma plain_chars l : Forall (fun c => 93 <= c < 128) l -> characters l l.
Proof.
  induction 1 as [|c l Hc _ IH]; [constructor|]. cbv beta in Hc. apply (chars_cons [c] [c] l l); [|done].
  assert (utf8 c = [c]) as E by (unfold utf8; by rewrite (proj2 (Z.ltb_lt c 128)) by lia). rewrite <- E. apply char_plain; [unfold scalar|..]; lia.
Qed.
Lemma plain_key s : s ∈ ["s"; "threshold"]%string -> quoted (34 :: text s ++ [34]) (text s).
Proof.
  intros H. eexists. split; [reflexivity|]. apply plain_chars. rewrite !elem_of_cons, elem_of_nil in H. destruct H as [->|[->|[]]]; vm_compute; repeat constructor; done.
Qed.
Example C75_example : exists t1 t2 ms1 ms2, object_members t1 ms1 /\ object_members t2 ms2 /\ NoDup (map fst ms1) /\ Permutation ms1 ms2 /\
  t1 = text """s"":2,""threshold"":5" /\ t2 = text """threshold"": 5,""s"":2".
Proof.
  assert (value [50] (JUns 2)) as V2. { apply v_number. apply (num_nat [50]); [apply int_other; [unfold digit; lia|done|constructor]|reflexivity]. }
  assert (value [53] (JUns 5)) as V5. { apply v_number. apply (num_nat [53]); [apply int_other; [unfold digit; lia|done|constructor]|reflexivity]. }
  assert (white []) as W by constructor. assert (white [32]) as W1 by (repeat constructor).
  do 2 eexists. exists [("s", JUns 2); ("threshold", JUns 5)]%string, [("threshold", JUns 5); ("s", JUns 2)]%string.
  split; [eapply (m_more [] _ (text "s") [] [] [50] _ []); try done; [apply plain_key; set_solver|eapply (m_one [] _ (text "threshold") [] [] [53] _ []); try done; apply plain_key; set_solver]|].
  split; [eapply (m_more [] _ (text "threshold") [] [32] [53] _ []); try done; [apply plain_key; set_solver|eapply (m_one [] _ (text "s") [] [] [50] _ []); try done; apply plain_key; set_solver]|].
  split; [repeat constructor; set_solver|]. split; [apply perm_swap|]. split; reflexivity.
Qed.

(** ** C76: what follows a zero byte is not looked at: a text that is not JSON is accepted *)
Theorem C76_zero_byte_refuted : forall t j r, json_text t j -> (forall j', ~ json_text (t ++ 0 :: r) j') /\
  (forall hw rd, make_classifier_params_from_text hw rd (t ++ 0 :: r) = make_classifier_params_from_text hw rd t /\
    make_regressor_params_from_text hw rd (t ++ 0 :: r) = make_regressor_params_from_text hw rd t) /\
  (forall P (C : pol_codec P) S (e : est P (eS S) irng frng), clf_load_string C S e (t ++ 0 :: r) = clf_load_string C S e t /\
    reg_load_string C S e (t ++ 0 :: r) = reg_load_string C S e t).
Proof. exact zero_byte. Qed.
Print Assumptions C76_zero_byte_refuted.
Definition short_text : list Z := text "{""threshold"": 7}".
Definition long_text : list Z := short_text ++ 0 :: text "}garbage".
Example C76_example : json_text short_text (jobject [("threshold", JUns 7)]%string) /\
  exists p, make_classifier_params_from_text 4 99 long_text = Ret (Right p) /\ p !! "threshold"%string = Some (PInt 7).
Proof.
  assert (0 ∉ short_text) as H0 by (intros H0%elem_of_list_In; vm_compute in H0; repeat (destruct H0 as [H0|H0]; [discriminate H0|]); exact H0).
  split; [apply (stands_text _ _ H0), parse_stands; vm_compute; reflexivity|].
  exists (params_of (make_classifier_params_from_text 4 99 long_text)). split; vm_compute; reflexivity.
Qed.
