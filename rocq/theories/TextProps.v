(** * Proofs of the properties of the functions on texts. *)
From Verif Require Import FloatFacts.
From Verif Require Import StateProps.
From Verif Require Import TextIO.
From Verif Require Import JsonGrammar LexFacts NumFacts ParseProps DumpFacts DumpProps TextFacts.
From Verif Require Export TextState TextSpec.
From Coq Require Import ZArith Lia Permutation.
From stdpp Require Import list.
Local Open Scope Z_scope.

Lemma text_stands t j : json_text t j -> stands_for t j.
Proof. intros H. exists t, []. rewrite app_nil_r. split; [done|]. split; [done|by left]. Qed.
Lemma parse_stands t j : parse t = Ret (Some j) <-> stands_for t j.
Proof.
  rewrite parse_spec. split; intros (t0 & r & E & H & Ha); exists t0, r; (split; [done|]); (split; [done|]).
  - exact Ha.
  - exact Ha.
Qed.
Lemma parse_not t : (forall j, ~ stands_for t j) -> parse t = Ret None.
Proof.
  intros H. destruct (parse_total t) as ([j|] & E); [|done]. exfalso. apply (H j). by apply parse_stands.
Qed.
Lemma parse_cases t : (exists j, stands_for t j /\ parse t = Ret (Some j)) \/ ((forall j, ~ stands_for t j) /\ parse t = Ret None).
Proof.
  destruct (parse_total t) as ([j|] & E); [left; exists j; split; [by apply parse_stands|done]|right]. split; [|done].
  intros j Hj%parse_stands. congruence.
Qed.

(** ** Reading *)
Lemma factories_stand hw rd t j : stands_for t j ->
  make_classifier_params_from_text hw rd t = make_classifier_params_from_json hw rd (Some j) /\
  make_regressor_params_from_text hw rd t = make_regressor_params_from_json hw rd (Some j).
Proof. intros H%parse_stands. unfold make_classifier_params_from_text, make_regressor_params_from_text. by rewrite H. Qed.
Lemma factories_not hw rd t : (forall j, ~ stands_for t j) ->
  make_classifier_params_from_text hw rd t = Ret (Left S_BAD_JSON) /\ make_regressor_params_from_text hw rd t = Ret (Left S_BAD_JSON).
Proof. intros H%parse_not. unfold make_classifier_params_from_text, make_regressor_params_from_text. by rewrite H. Qed.
Lemma load_stand {P} (C : pol_codec P) S (e : est P (eS S) irng frng) t j : stands_for t j ->
  clf_load_string C S e t = clf_load C S e j /\ reg_load_string C S e t = reg_load C S e j.
Proof. intros H%parse_stands. unfold clf_load_string, reg_load_string, parse_json. by rewrite H. Qed.
Lemma from_stand {P} (C : pol_codec P) S (e : est P (eS S) irng frng) t j : stands_for t j ->
  clf_from_json_string C S e t = clf_from_json C S e j /\ reg_from_json_string C S e t = reg_from_json C S e j.
Proof. intros H%parse_stands. unfold clf_from_json_string, reg_from_json_string, parse_json. by rewrite H. Qed.
Lemma load_not {P} (C : pol_codec P) S (e : est P (eS S) irng frng) t : (forall j, ~ stands_for t j) ->
  clf_load_string C S e t = Ret (Some JsonParseError, e) /\ reg_load_string C S e t = Ret (Some JsonParseError, e).
Proof. intros H%parse_not. unfold clf_load_string, reg_load_string, parse_json. by rewrite H. Qed.
Lemma stands_unique t j1 j2 : stands_for t j1 -> stands_for t j2 -> j1 = j2.
Proof. intros H1%parse_stands H2%parse_stands. congruence. Qed.

(** ** Padding and order *)
Lemma padded t j w1 w2 : json_text t j -> white w1 -> white w2 -> (forall t', t <> [239; 187; 191] ++ t') -> json_text (w1 ++ t ++ w2) j.
Proof.
  intros (bom & v1 & u & v2 & -> & Hb & Hw1 & Hv & Hw2) H1 H2 Hn. destruct Hb as [->| ->]; [|by exfalso; eapply Hn].
  exists [], (w1 ++ v1), u, (v2 ++ w2). split; [cbn [app]; by rewrite <- !app_assoc|]. split; [by left|]. split; [by apply Forall_app_2|]. split; [done|by apply Forall_app_2].
Qed.
Lemma marked t j : json_text t j -> (forall t', t <> [239; 187; 191] ++ t') -> json_text ([239; 187; 191] ++ t) j.
Proof.
  intros (bom & v1 & u & v2 & -> & Hb & Hw1 & Hv & Hw2) Hn. destruct Hb as [->| ->]; [|by exfalso; eapply Hn].
  exists [239; 187; 191], v1, u, v2. split; [done|]. split; [by right|done].
Qed.
(** ** No JSON text contains a zero byte *)
Definition nonzero (t : list Z) : Prop := Forall (fun c => c <> 0) t.
Lemma white_nonzero w : white w -> nonzero w.
Proof. intros H. eapply Forall_impl; [exact H|]. intros c Hc ->. cbv beta in Hc. rewrite !elem_of_cons, elem_of_nil in Hc. lia. Qed.
Lemma digits_nonzero w : digits w -> nonzero w.
Proof. intros H. eapply Forall_impl; [exact H|]. intros c Hc ->. unfold digit in Hc. lia. Qed.
Lemma hex_nonzero c i : hex c i -> c <> 0.
Proof. destruct 1; lia. Qed.
Lemma hex4_nonzero t n : JsonGrammar.hex4 t n -> nonzero t.
Proof. destruct 1 as [c1 c2 c3 c4 a b c d H1%hex_nonzero H2%hex_nonzero H3%hex_nonzero H4%hex_nonzero]. by repeat constructor. Qed.
Lemma utf8_nonzero cp : 32 <= cp -> nonzero (utf8 cp).
Proof.
  intros H. unfold utf8. destruct (Z.ltb_spec cp 128); [|destruct (Z.ltb_spec cp 2048); [|destruct (Z.ltb_spec cp 65536)]].
  all: repeat (apply Forall_cons_2; [zdiv|]); apply Forall_nil_2.
Qed.
Lemma character_nonzero t b : character t b -> nonzero t.
Proof.
  destruct 1 as [cp _ Hc _ _|e c Hin|h cp Hh _|h1 h2 hi lo H1 H2 _ _].
  - by apply utf8_nonzero.
  - repeat constructor; [done|]. rewrite !elem_of_cons, elem_of_nil in Hin. intros ->. destruct Hin as [E|[E|[E|[E|[E|[E|[E|[E|[]]]]]]]]]; discriminate E.
  - repeat (apply Forall_cons_2; [done|]). by eapply hex4_nonzero.
  - repeat (apply Forall_cons_2; [done|]). apply Forall_app_2; [by eapply hex4_nonzero|]. repeat (apply Forall_cons_2; [done|]). by eapply hex4_nonzero.
Qed.
Lemma quoted_nonzero t b : quoted t b -> nonzero t.
Proof.
  intros (u & -> & H). apply Forall_cons_2; [done|]. apply Forall_app_2; [|by repeat constructor].
  induction H as [|t b t' b' H _ IH]; [constructor|]. apply Forall_app_2; [by eapply character_nonzero|done].
Qed.
Lemma integer_nonzero t : integer_part t -> nonzero t.
Proof. intros H. apply digits_nonzero. by apply integer_digits. Qed.
Lemma exponent_nonzero t e : exponent t e -> nonzero t.
Proof.
  destruct 1 as [|e ds He Hd _|e ds He Hd _|e ds He Hd _]; [constructor|..]; apply digits_nonzero in Hd; rewrite !elem_of_cons, elem_of_nil in He.
  all: repeat (apply Forall_cons_2; [lia|]); exact Hd.
Qed.
Lemma fraction_nonzero t f : fraction t f -> nonzero t.
Proof. destruct 1 as [|ds Hd _]; [constructor|]. apply Forall_cons_2; [done|by apply digits_nonzero]. Qed.
Lemma number_nonzero t j : number t j -> nonzero t.
Proof.
  destruct 1 as [t Hi _|t Hi _|neg i ft f et e x Hi Hf He _ _].
  - by apply integer_nonzero.
  - apply Forall_cons_2; [done|by apply integer_nonzero].
  - repeat apply Forall_app_2; [by destruct neg; repeat constructor|by apply integer_nonzero|by eapply fraction_nonzero|by eapply exponent_nonzero].
Qed.
Ltac nz := repeat first [apply Forall_app_2|apply Forall_cons_2; [lia|]|apply Forall_nil_2|apply white_nonzero; assumption|eapply quoted_nonzero; eassumption|assumption].
Lemma value_nonzero : (forall t j, value t j -> nonzero t) /\ (forall t vs, array_elements t vs -> nonzero t) /\ (forall t ms, object_members t ms -> nonzero t).
Proof.
  apply (value_mutind (fun t j => nonzero t) (fun t vs => nonzero t) (fun t ms => nonzero t)); intros; unfold nonzero in *.
  1-3: by repeat constructor.
  - by eapply number_nonzero.
  - by eapply quoted_nonzero.
  - nz.
  - nz.
  - nz.
  - nz.
  - nz.
  - nz.
  - nz.
  - nz.
Qed.
Lemma text_nonzero t j : json_text t j -> nonzero t.
Proof.
  intros (bom & v1 & u & v2 & -> & Hb & Hw1 & Hv & Hw2). pose proof (proj1 value_nonzero _ _ Hv) as Hu.
  assert (nonzero bom) by (destruct Hb as [->| ->]; by repeat constructor). unfold nonzero in *. nz.
Qed.
Lemma zero_not_json t : 0 ∈ t -> forall j, ~ json_text t j.
Proof. intros H j Hj%text_nonzero. unfold nonzero in Hj. rewrite list.Forall_forall in Hj. by apply (Hj 0 H). Qed.

(** ** Writing *)
Lemma dump_text j : writable j -> exists t, dump j = Ret t /\ json_text t (reparse j).
Proof.
  intros H. destruct (dump_spec j H) as (t & E & Hv). exists t. split; [done|]. exists [], [], t, []. cbn [app]. rewrite app_nil_r.
  split; [done|]. split; [by left|]. split; [constructor|]. split; [done|constructor].
Qed.

Section Saved.
  Context (sh : irng -> nat -> list nat * irng) (l : bool) (fuel : nat) (b1 b2 : Z -> float32) (Hsh : shuffle_ok sh).
  Let R := mt_rnd sh l fuel b1 b2.
  Context (A : algo R) (vw : aview A) (C : pol_codec (a_pol A)) (HC : tsetlini_codec R A vw C).
  Notation estS S := (est (a_pol A) (eS S) irng frng).

  Lemma clf_text S p os rs (e : est (a_pol A) (eS S) (eG R) (eF R)) : sch_ok S -> clf_made_text p -> clf_history S A vw p os rs e ->
    exists j t, clf_to_json C S e = Ret j /\ clf_to_json_string C S e = Ret t /\ json_text t (reparse j).
  Proof.
    intros HS Hm Hh. destruct (clf_made_facts p (clf_made_text_made p Hm)) as ((a & Ha) & Hst & _).
    destruct (clf_writable sh l fuel b1 b2 Hsh A vw C HC S a p os rs e HS Ha Hst (clf_made_utf8 p Hm) Hh) as (j & Ej & Hw).
    destruct (dump_text j Hw) as (t & Et & Hj). exists j, t. split; [done|]. split; [|done]. unfold clf_to_json_string.
    exact (eq_trans (f_equal (fun o => obind o dump) Ej) Et).
  Qed.
  Lemma reg_text S p os rs (e : est (a_pol A) (eS S) (eG R) (eF R)) : sch_ok S -> reg_made_text p -> reg_history S A vw p os rs e ->
    exists j t, reg_to_json C S e = Ret j /\ reg_to_json_string C S e = Ret t /\ json_text t (reparse j).
  Proof.
    intros HS Hm Hh. destruct (reg_made_facts p (reg_made_text_made p Hm)) as ((a & Ha) & Hst & _).
    destruct (reg_writable sh l fuel b1 b2 Hsh A vw C HC S a p os rs e HS Ha Hst (reg_made_utf8 p Hm) Hh) as (j & Ej & Hw).
    destruct (dump_text j Hw) as (t & Et & Hj). exists j, t. split; [done|]. split; [|done]. unfold reg_to_json_string.
    exact (eq_trans (f_equal (fun o => obind o dump) Ej) Et).
  Qed.
End Saved.
Lemma stands_text t j : 0 ∉ t -> stands_for t j <-> json_text t j.
Proof.
  intros H0. split; [|apply text_stands]. intros (t0 & r & -> & H & [->|(r' & ->)]); [by rewrite app_nil_r|]. exfalso. apply H0. apply elem_of_app. right. by constructor.
Qed.
Lemma same_stand t1 t2 j : stands_for t1 j -> stands_for t2 j ->
  (forall hw rd, make_classifier_params_from_text hw rd t1 = make_classifier_params_from_text hw rd t2 /\
    make_regressor_params_from_text hw rd t1 = make_regressor_params_from_text hw rd t2) /\
  (forall P (C : pol_codec P) S (e : est P (eS S) irng frng), clf_load_string C S e t1 = clf_load_string C S e t2 /\
    reg_load_string C S e t1 = reg_load_string C S e t2).
Proof.
  intros H1 H2. split.
  - intros hw rd. destruct (factories_stand hw rd t1 j H1) as [-> ->]. by destruct (factories_stand hw rd t2 j H2) as [-> ->].
  - intros P C S e. destruct (load_stand C S e t1 j H1) as [-> ->]. by destruct (load_stand C S e t2 j H2) as [-> ->].
Qed.
Lemma same_value t1 t2 j : json_text t1 j -> json_text t2 j ->
  (forall hw rd, make_classifier_params_from_text hw rd t1 = make_classifier_params_from_text hw rd t2 /\
    make_regressor_params_from_text hw rd t1 = make_regressor_params_from_text hw rd t2) /\
  (forall P (C : pol_codec P) S (e : est P (eS S) irng frng), clf_load_string C S e t1 = clf_load_string C S e t2 /\
    reg_load_string C S e t1 = reg_load_string C S e t2).
Proof. intros H1%text_stands H2%text_stands. by eapply same_stand. Qed.
Lemma zero_byte t j r : json_text t j -> (forall j', ~ json_text (t ++ 0 :: r) j') /\
  (forall hw rd, make_classifier_params_from_text hw rd (t ++ 0 :: r) = make_classifier_params_from_text hw rd t /\
    make_regressor_params_from_text hw rd (t ++ 0 :: r) = make_regressor_params_from_text hw rd t) /\
  (forall P (C : pol_codec P) S (e : est P (eS S) irng frng), clf_load_string C S e (t ++ 0 :: r) = clf_load_string C S e t /\
    reg_load_string C S e (t ++ 0 :: r) = reg_load_string C S e t).
Proof.
  intros H. split.
  - apply zero_not_json. apply elem_of_app. right. by constructor.
  - eapply same_stand; [|by apply text_stands]. exists t, (0 :: r). split; [done|]. split; [done|]. right. by eexists.
Qed.
Lemma plain_text u j : value u j -> json_text u j.
Proof. intros H. exists [], [], u, []. cbn [app]. rewrite app_nil_r. split; [done|]. split; [by left|]. split; [constructor|]. split; [done|constructor]. Qed.
Lemma member_order t1 t2 ms1 ms2 : object_members t1 ms1 -> object_members t2 ms2 -> NoDup (map fst ms1) -> Permutation ms1 ms2 ->
  exists j, json_text (123 :: t1 ++ [125]) j /\ json_text (123 :: t2 ++ [125]) j.
Proof.
  intros H1 H2 Hn Hp. exists (jobject ms1). split; [apply plain_text; by constructor|]. rewrite (jobject_perm ms1 ms2 Hn Hp). apply plain_text. by constructor.
Qed.
