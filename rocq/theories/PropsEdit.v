(** * C84: documents written or edited by hand.
    The specification is in Document.v: what a document says ([read_classifier], [document_votes], ...) and which learning states are
    usable ([sound_state]). *)
From Verif Require Import FloatFacts.
From Verif Require Import OneStep StateProps.
From Verif Require Import TextIO JsonGrammar TextState Document DocProps EditProps EditInst EditSaved.
From Verif Require Import DumpProps TextFacts TextProps TextSpec.
From Verif Require Import PropsState PropsLoad PropsText ToyTrain ToyDefects PropsDoc.
From stdpp Require Import list option.
Local Open Scope Z_scope.

(** [t] is the saved text of a fitted classic classifier.  [t'] is any text with the same generators and parameters and any sound learning
    state: the right numbers of rows, automata and weights, whatever their values, in one, two or four bytes.  Then [t'] can be loaded into
    any estimator, and what is loaded
    - has the parameters of the saved classifier; saving it gives back the rows and weights of [t'];
    - answers as the independent reader says the document does, for every sample;
    - if the automata have the bytes of the saved ones and are between -number_of_states and number_of_states - 1: after any further calls,
      training included, has automata between these bounds and weights between theirs. *)
Theorem C84_classifier : forall sh l fuel b1 b2, shuffle_ok sh -> forall S1 S2, sch_ok S1 -> sch_ok S2 ->
  forall a p os rs e L nf t doc t' doc', clf_created a p -> clf_made_text p -> finite_C1 p ->
  clf_history S1 (classic (mt_rnd sh l fuel b1 b2)) (cl_view _) p os rs e -> clf_dims_of os rs = Some (L, nf) ->
  clf_to_json_string classic_codec S1 e = Ret t -> json_text t doc -> json_text t' doc' -> same_rest doc doc' ->
  sound_state (Z.of_nat L * ca_clauses a) (Z.of_nat nf) (ca_weighted a) (ca_max_weight a) doc' ->
  forall e0, exists e' m, clf_from_json_string classic_codec S2 e0 t' = Ret e' /\ read_classifier doc' = Some m /\
    e_params e' = e_params e /\
    (exists again, clf_to_json classic_codec S2 e' = Ret again /\ rows_of (reparse again) = rows_of doc' /\ weights_of (reparse again) = weights_of doc') /\
    (forall x, v_ok (cl_view (mt_rnd sh l fuel b1 b2)) nf x -> exists e1 e2 w,
      clf_decision1 S2 (classic (mt_rnd sh l fuel b1 b2)) e' x = Ret (Right (document_votes m (v_x (cl_view (mt_rnd sh l fuel b1 b2)) x)), e1) /\
      clf_predict1 S2 (classic (mt_rnd sh l fuel b1 b2)) e' x = Ret (Right (Z.of_nat w), e2) /\ wins m (v_x (cl_view (mt_rnd sh l fuel b1 b2)) x) w) /\
    (bytes_of doc' = bytes_of doc -> (forall rows, rows_of doc' = Some rows -> Forall (Forall (fun z => - ca_states a <= z < ca_states a)) rows) ->
      forall more rs' e'', clf_run S2 (classic (mt_rnd sh l fuel b1 b2)) e' more = Ret (rs', e'') ->
      exists L' nf' again rows ws, clf_to_json classic_codec S2 e'' = Ret again /\ rows_of (reparse again) = Some rows /\ weights_of (reparse again) = Some ws /\
        Z.of_nat (length rows) = Z.of_nat L' * ca_clauses a /\ Forall (fun row => length row = nf') rows /\
        Forall (Forall (fun z => - ca_states a <= z < ca_states a)) rows /\
        if ca_weighted a then 2 * Z.of_nat (length ws) = Z.of_nat L' * ca_clauses a /\ Forall (fun v => 0 <= v < ca_max_weight a) ws else ws = []).
Proof. exact classic_clf_edited. Qed.
Print Assumptions C84_classifier.

Theorem C84_regressor : forall sh l fuel b1 b2, shuffle_ok sh -> forall S1 S2, sch_ok S1 -> sch_ok S2 ->
  forall a p os rs e nf t doc t' doc', reg_created a p -> reg_made_text p -> finite_C1 p ->
  reg_history S1 (classic (mt_rnd sh l fuel b1 b2)) (cl_view _) p os rs e -> reg_dims_of os rs = Some nf ->
  reg_to_json_string classic_codec S1 e = Ret t -> json_text t doc -> json_text t' doc' -> same_rest doc doc' ->
  sound_state (ra_clauses a) (Z.of_nat nf) (ra_weighted a) (ra_max_weight a) doc' ->
  forall e0, exists e' m, reg_from_json_string classic_codec S2 e0 t' = Ret e' /\ read_regressor doc' = Some m /\
    e_params e' = e_params e /\
    (exists again, reg_to_json classic_codec S2 e' = Ret again /\ rows_of (reparse again) = rows_of doc' /\ weights_of (reparse again) = weights_of doc') /\
    (forall x, v_ok (cl_view (mt_rnd sh l fuel b1 b2)) nf x -> exists e1,
      reg_predict1 S2 (classic (mt_rnd sh l fuel b1 b2)) e' x = Ret (Right (document_response m (v_x (cl_view (mt_rnd sh l fuel b1 b2)) x)), e1)) /\
    (bytes_of doc' = bytes_of doc -> (forall rows, rows_of doc' = Some rows -> Forall (Forall (fun z => - ra_states a <= z < ra_states a)) rows) ->
      forall more rs' e'', reg_run S2 (classic (mt_rnd sh l fuel b1 b2)) e' more = Ret (rs', e'') ->
      exists nf' again rows ws, reg_to_json classic_codec S2 e'' = Ret again /\ rows_of (reparse again) = Some rows /\ weights_of (reparse again) = Some ws /\
        Z.of_nat (length rows) = ra_clauses a /\ Forall (fun row => length row = nf') rows /\
        Forall (Forall (fun z => - ra_states a <= z < ra_states a)) rows /\
        if ra_weighted a then 2 * Z.of_nat (length ws) = ra_clauses a /\ Forall (fun v => 0 <= v < ra_max_weight a) ws else ws = []).
Proof. exact classic_reg_edited. Qed.
Print Assumptions C84_regressor.

(** the hypotheses are met: the saved text of C83_example (two labels, four clauses of the parameter, three features, weights below 7) with
    another learning state.  The text [t'] is one the library itself would write. *)
Definition hand_state : json := JObj [
  ("matrix", JObj [("data", JArr [
     JArr [JInt 0; JInt (-1); JInt (-1)]; JArr [JInt (-1); JInt 0; JInt (-1)]; JArr [JInt (-1); JInt (-1); JInt 0]; JArr [JInt (-1); JInt (-1); JInt (-1)];
     JArr [JInt (-128); JInt 127; JInt (-1)]; JArr [JInt (-1); JInt (-1); JInt (-1)]; JArr [JInt (-1); JInt (-1); JInt (-1)]; JArr [JInt 5; JInt (-1); JInt (-6)]]);
     ("width", JUns 1)]);
  ("weights", JArr [JUns 0; JUns 3; JUns 6; JUns 0])]%string.
(** the same with all automata between -1 and 0, the bounds of one state *)
Definition hand_state_within : json := JObj [
  ("matrix", JObj [("data", JArr [
     JArr [JInt 0; JInt (-1); JInt (-1)]; JArr [JInt (-1); JInt 0; JInt (-1)]; JArr [JInt (-1); JInt (-1); JInt 0]; JArr [JInt (-1); JInt (-1); JInt (-1)];
     JArr [JInt 0; JInt 0; JInt (-1)]; JArr [JInt (-1); JInt (-1); JInt (-1)]; JArr [JInt (-1); JInt (-1); JInt (-1)]; JArr [JInt 0; JInt (-1); JInt (-1)]]);
     ("width", JUns 1)]);
  ("weights", JArr [JUns 0; JUns 3; JUns 6; JUns 0])]%string.
Example C84_example : forall st, st = hand_state \/ st = hand_state_within -> exists e t doc t' doc', clf_created n1_a n1_params /\ clf_made_text n1_params /\ finite_C1 n1_params /\
  clf_history toy_sch CM (cl_view mt42) n1_params two_ops [CRStatus S_OK] e /\ clf_dims_of two_ops [CRStatus S_OK] = Some (2%nat, 3%nat) /\
  clf_to_json_string classic_codec toy_sch e = Ret t /\ json_text t doc /\ json_text t' doc' /\ same_rest doc doc' /\
  sound_state (Z.of_nat 2 * ca_clauses n1_a) (Z.of_nat 3) (ca_weighted n1_a) (ca_max_weight n1_a) doc' /\
  member doc' "ta_state" = Some (reparse st) /\
  bytes_of doc' = Some 1 /\ (st = hand_state_within -> forall rows, rows_of doc' = Some rows -> Forall (Forall (fun z => - ca_states n1_a <= z < ca_states n1_a)) rows).
Proof.
  intros st Hst.
  destruct C83_example as (e & _ & _ & Hc & Hm & Hh & Hd).
  destruct (clf_writable _ _ _ _ _ fy_shuffle_ok CM (cl_view mt42) classic_codec ltac:(constructor) toy_sch n1_a n1_params two_ops _ e toy_sch_ok Hc
    (proj1 (proj2 (clf_made_facts _ (clf_made_text_made _ Hm)))) (clf_made_utf8 _ Hm) Hh) as (d & Ed & Hw).
  destruct (dump_text d Hw) as (t & Et & Ht).
  destruct (other_state classic_codec "classifier" toy_sch e d st Ed Hw) as (t' & doc' & Ht' & Hr & Hs).
  { destruct Hst as [-> | ->]; unfold hand_state, hand_state_within; cbn [writable]; split_and!; repeat constructor; try lit; cbn; lia. }
  exists e, t, (reparse d), t', doc'. split; [exact Hc|]. split; [exact Hm|]. split; [exact (proj2 n1_made)|]. split; [exact Hh|]. split; [exact Hd|].
  split; [unfold clf_to_json_string; exact (eq_trans (f_equal (fun o => obind o dump) Ed) Et)|]. split; [exact Ht|]. split; [exact Ht'|]. split; [exact Hr|].
  split; [|split; [exact Hs|split]].
  - eapply (sound_of_state _ _ _ _ (JObj [("ta_state", reparse st)]%string)); [by rewrite Hs|].
    destruct Hst as [-> | ->]; eexists 1, _, _; (split; [reflexivity|]); (split; [reflexivity|]); (split; [reflexivity|]); (split; [by left|]);
      (split; [reflexivity|]); (split; [reflexivity|]); (split; [|split; [reflexivity|]]); repeat constructor; vm_compute; congruence.
  - unfold bytes_of. rewrite Hs. by destruct Hst as [-> | ->].
  - intros -> rows. unfold rows_of. rewrite Hs. intros E. vm_compute in E. injection E as <-. repeat constructor; vm_compute; congruence.
Qed.
Definition hand_state_regressor : json := JObj [
  ("matrix", JObj [("data", JArr [
     JArr [JInt 9; JInt (-1); JInt (-10)]; JArr [JInt (-1); JInt 0; JInt (-1)]; JArr [JInt (-1); JInt (-7); JInt 4]; JArr [JInt 3; JInt (-1); JInt (-1)]]);
     ("width", JUns 1)]);
  ("weights", JArr [JUns 6; JUns 0])]%string.
Example C84_example_regressor : exists e t doc t' doc', reg_created toy_ra toy_reg_params /\ reg_made_text toy_reg_params /\ finite_C1 toy_reg_params /\
  reg_history toy_sch CM (cl_view mt42) toy_reg_params mt_reg_ops [RRStatus S_OK] e /\ reg_dims_of mt_reg_ops [RRStatus S_OK] = Some 3%nat /\
  reg_to_json_string classic_codec toy_sch e = Ret t /\ json_text t doc /\ json_text t' doc' /\ same_rest doc doc' /\
  sound_state (ra_clauses toy_ra) (Z.of_nat 3) (ra_weighted toy_ra) (ra_max_weight toy_ra) doc' /\
  member doc' "ta_state" = Some (reparse hand_state_regressor) /\
  bytes_of doc' = Some 1 /\ (forall rows, rows_of doc' = Some rows -> Forall (Forall (fun z => - ra_states toy_ra <= z < ra_states toy_ra)) rows).
Proof.
  destruct C83_example_regressor as (e & Hc & Hm & Hh & Hd).
  destruct (reg_writable _ _ _ _ _ fy_shuffle_ok CM (cl_view mt42) classic_codec ltac:(constructor) toy_sch toy_ra toy_reg_params mt_reg_ops _ e toy_sch_ok Hc
    (proj1 (proj2 (reg_made_facts _ (reg_made_text_made _ Hm)))) (reg_made_utf8 _ Hm) Hh) as (d & Ed & Hw).
  destruct (dump_text d Hw) as (t & Et & Ht).
  destruct (other_state classic_codec "regressor" toy_sch e d hand_state_regressor Ed Hw) as (t' & doc' & Ht' & Hr & Hs).
  { unfold hand_state_regressor; cbn [writable]; split_and!; repeat constructor; try lit; cbn; lia. }
  exists e, t, (reparse d), t', doc'. split; [exact Hc|]. split; [exact Hm|]. split; [exact (proj2 toy_reg_made)|]. split; [exact Hh|]. split; [exact Hd|].
  split; [unfold reg_to_json_string; exact (eq_trans (f_equal (fun o => obind o dump) Ed) Et)|]. split; [exact Ht|]. split; [exact Ht'|]. split; [exact Hr|].
  split; [|split; [exact Hs|split]].
  - eapply (sound_of_state _ _ _ _ (JObj [("ta_state", reparse hand_state_regressor)]%string)); [by rewrite Hs|].
    eexists 1, _, _; (split; [reflexivity|]); (split; [reflexivity|]); (split; [reflexivity|]); (split; [by left|]);
      (split; [reflexivity|]); (split; [reflexivity|]); (split; [|split; [reflexivity|]]); repeat constructor; vm_compute; congruence.
  - unfold bytes_of. rewrite Hs. done.
  - intros rows. unfold rows_of. rewrite Hs. intros E. vm_compute in E. injection E as <-. repeat constructor; vm_compute; congruence.
Qed.

(** The same for bitwise estimators with at least two states, whose documents also store one bit for each automaton: the bits of [t'] match
    its automata. *)
Theorem C84_classifier_bitwise : forall sh l fuel b1 b2, shuffle_ok sh -> forall S1 S2, sch_ok S1 -> sch_ok S2 ->
  forall a p os rs e L nf t doc t' doc', clf_created a p -> 2 <= ca_states a -> clf_made_text p -> finite_C1 p ->
  clf_history S1 (Algo.bitwise (mt_rnd sh l fuel b1 b2)) (bw_view _) p os rs e -> clf_dims_of os rs = Some (L, nf) ->
  clf_to_json_string bitwise_codec S1 e = Ret t -> json_text t doc -> json_text t' doc' -> same_rest doc doc' ->
  sound_state (Z.of_nat L * ca_clauses a) (Z.of_nat nf) (ca_weighted a) (ca_max_weight a) doc' ->
  matching_polarity (Z.of_nat L * ca_clauses a) (Z.of_nat nf) doc' ->
  forall e0, exists e' m, clf_from_json_string bitwise_codec S2 e0 t' = Ret e' /\ read_classifier doc' = Some m /\
    e_params e' = e_params e /\
    (exists again, clf_to_json bitwise_codec S2 e' = Ret again /\ rows_of (reparse again) = rows_of doc' /\ weights_of (reparse again) = weights_of doc') /\
    (forall x, bits_phys x -> bits_ok nf x -> exists e1 e2 w,
      clf_decision1 S2 (Algo.bitwise (mt_rnd sh l fuel b1 b2)) e' x = Ret (Right (document_votes m (bv_bit 64 x)), e1) /\
      clf_predict1 S2 (Algo.bitwise (mt_rnd sh l fuel b1 b2)) e' x = Ret (Right (Z.of_nat w), e2) /\ wins m (bv_bit 64 x) w) /\
    (bytes_of doc' = bytes_of doc -> (forall rows, rows_of doc' = Some rows -> Forall (Forall (fun z => - ca_states a <= z < ca_states a)) rows) ->
      forall more rs' e'', Forall (clf_op_phys (Algo.bitwise (mt_rnd sh l fuel b1 b2)) (bw_view _)) more -> clf_run S2 (Algo.bitwise (mt_rnd sh l fuel b1 b2)) e' more = Ret (rs', e'') ->
      exists L' nf' again rows ws, clf_to_json bitwise_codec S2 e'' = Ret again /\ rows_of (reparse again) = Some rows /\ weights_of (reparse again) = Some ws /\
        Z.of_nat (length rows) = Z.of_nat L' * ca_clauses a /\ Forall (fun row => length row = nf') rows /\
        Forall (Forall (fun z => - ca_states a <= z < ca_states a)) rows /\
        if ca_weighted a then 2 * Z.of_nat (length ws) = Z.of_nat L' * ca_clauses a /\ Forall (fun v => 0 <= v < ca_max_weight a) ws else ws = []).
Proof. exact bitwise_clf_edited. Qed.
Print Assumptions C84_classifier_bitwise.

Theorem C84_regressor_bitwise : forall sh l fuel b1 b2, shuffle_ok sh -> forall S1 S2, sch_ok S1 -> sch_ok S2 ->
  forall a p os rs e nf t doc t' doc', reg_created a p -> 2 <= ra_states a -> reg_made_text p -> finite_C1 p ->
  reg_history S1 (Algo.bitwise (mt_rnd sh l fuel b1 b2)) (bw_view _) p os rs e -> reg_dims_of os rs = Some nf ->
  reg_to_json_string bitwise_codec S1 e = Ret t -> json_text t doc -> json_text t' doc' -> same_rest doc doc' ->
  sound_state (ra_clauses a) (Z.of_nat nf) (ra_weighted a) (ra_max_weight a) doc' ->
  matching_polarity (ra_clauses a) (Z.of_nat nf) doc' ->
  forall e0, exists e' m, reg_from_json_string bitwise_codec S2 e0 t' = Ret e' /\ read_regressor doc' = Some m /\
    e_params e' = e_params e /\
    (exists again, reg_to_json bitwise_codec S2 e' = Ret again /\ rows_of (reparse again) = rows_of doc' /\ weights_of (reparse again) = weights_of doc') /\
    (forall x, bits_phys x -> bits_ok nf x -> exists e1,
      reg_predict1 S2 (Algo.bitwise (mt_rnd sh l fuel b1 b2)) e' x = Ret (Right (document_response m (bv_bit 64 x)), e1)) /\
    (bytes_of doc' = bytes_of doc -> (forall rows, rows_of doc' = Some rows -> Forall (Forall (fun z => - ra_states a <= z < ra_states a)) rows) ->
      forall more rs' e'', Forall (reg_op_phys (Algo.bitwise (mt_rnd sh l fuel b1 b2)) (bw_view _)) more -> reg_run S2 (Algo.bitwise (mt_rnd sh l fuel b1 b2)) e' more = Ret (rs', e'') ->
      exists nf' again rows ws, reg_to_json bitwise_codec S2 e'' = Ret again /\ rows_of (reparse again) = Some rows /\ weights_of (reparse again) = Some ws /\
        Z.of_nat (length rows) = ra_clauses a /\ Forall (fun row => length row = nf') rows /\
        Forall (Forall (fun z => - ra_states a <= z < ra_states a)) rows /\
        if ra_weighted a then 2 * Z.of_nat (length ws) = ra_clauses a /\ Forall (fun v => 0 <= v < ra_max_weight a) ws else ws = []).
Proof. exact bitwise_reg_edited. Qed.
Print Assumptions C84_regressor_bitwise.

(** the hypotheses are met: the bitwise regressor of C59_example and a bitwise classifier with two states, with other learning states *)
Definition blocks8 (l : list Z) : json := JArr (flat_map (fun z => JUns z :: repeat (JUns 0) 7) l).
Definition hand_polarity (n : Z) (l : list Z) : json := jobject [("rows", JUns n); ("cols", JUns 3); ("data", blocks8 l)]%string.
Definition with_polarity (st : json) (n : Z) (l : list Z) : json :=
  match st with JObj ms => jobject (("polarity"%string, hand_polarity n l) :: ms) | _ => st end.
Lemma matching_by_check n f doc rows blocks : rows_of doc = Some rows -> polarity_of doc = Some (n, f, blocks) -> 0 <= f ->
  Z.of_nat (length blocks) = n * blocks_per_row f ->
  forallb (fun b => (0 <=? b) && (b <? 2 ^ 64)) blocks = true ->
  forallb (fun r => forallb (fun c =>
    Bool.eqb (Z.testbit (nth (Z.to_nat (Z.of_nat r * blocks_per_row f + Z.of_nat c / 64)) blocks 0) (Z.of_nat c mod 64)) (0 <=? nth c (nth r rows []) (-1)))
      (seq 0 (Z.to_nat (64 * blocks_per_row f)))) (seq 0 (Z.to_nat n)) = true ->
  matching_polarity n f doc.
Proof.
  intros Er Ep Hf Hl Hb H. exists rows, blocks. split; [done|]. split; [done|]. split; [done|]. split.
  - apply list.Forall_forall. intros b Hin. apply elem_of_list_In in Hin. pose proof (proj1 (forallb_forall _ _) Hb b Hin) as H0. cbv beta in H0. lia.
  - intros r c Hr Hc.
    assert (In (Z.to_nat r) (seq 0 (Z.to_nat n))) as Ir by (apply in_seq; lia).
    assert (In (Z.to_nat c) (seq 0 (Z.to_nat (64 * blocks_per_row f)))) as Ic by (apply in_seq; lia).
    pose proof (proj1 (forallb_forall _ _) H _ Ir) as H1. cbv beta in H1. pose proof (proj1 (forallb_forall _ _) H1 _ Ic) as H2. cbv beta in H2.
    rewrite !Z2Nat.id in H2 by lia. exact (Bool.eqb_prop _ _ H2).
Qed.
Lemma matching_of_state n f doc doc' : member doc' "ta_state"%string = member doc "ta_state"%string -> matching_polarity n f doc -> matching_polarity n f doc'.
Proof. unfold matching_polarity, rows_of, polarity_of. intros ->. exact id. Qed.
Definition hand_bits_regressor : json := Eval vm_compute in with_polarity hand_state_regressor 4 [1; 2; 4; 1].
Example C84_example_regressor_bitwise : exists e t doc t' doc', reg_created toy_ra toy_reg_params /\ 2 <= ra_states toy_ra /\ reg_made_text toy_reg_params /\ finite_C1 toy_reg_params /\
  reg_history toy_sch BM (bw_view mt42) toy_reg_params bw_reg_ops [RRStatus S_OK] e /\ reg_dims_of bw_reg_ops [RRStatus S_OK] = Some 3%nat /\
  reg_to_json_string bitwise_codec toy_sch e = Ret t /\ json_text t doc /\ json_text t' doc' /\ same_rest doc doc' /\
  sound_state (ra_clauses toy_ra) (Z.of_nat 3) (ra_weighted toy_ra) (ra_max_weight toy_ra) doc' /\ matching_polarity (ra_clauses toy_ra) (Z.of_nat 3) doc' /\
  member doc' "ta_state" = Some (reparse hand_bits_regressor).
Proof.
  destruct C59_example as (e & Hc & _ & _ & HN & Hh & Hd). pose proof (proj1 (proj2 (proj2 C74_example))) as Hm.
  destruct (reg_writable _ _ _ _ _ fy_shuffle_ok BM (bw_view mt42) bitwise_codec ltac:(constructor) toy_sch toy_ra toy_reg_params bw_reg_ops _ e toy_sch_ok Hc
    (proj1 (proj2 (reg_made_facts _ (reg_made_text_made _ Hm)))) (reg_made_utf8 _ Hm) Hh) as (d & Ed & Hw).
  destruct (dump_text d Hw) as (t & Et & Ht).
  destruct (other_state bitwise_codec "regressor" toy_sch e d hand_bits_regressor Ed Hw) as (t' & doc' & Ht' & Hr & Hs).
  { unfold hand_bits_regressor; cbn [writable]; split_and!; repeat constructor; try lit; cbn; lia. }
  exists e, t, (reparse d), t', doc'. split; [exact Hc|]. split; [exact HN|]. split; [exact Hm|]. split; [exact (proj2 toy_reg_made)|]. split; [exact Hh|]. split; [exact Hd|].
  split; [unfold reg_to_json_string; exact (eq_trans (f_equal (fun o => obind o dump) Ed) Et)|]. split; [exact Ht|]. split; [exact Ht'|]. split; [exact Hr|].
  split; [|split; [|exact Hs]].
  - eapply (sound_of_state _ _ _ _ (JObj [("ta_state", reparse hand_bits_regressor)]%string)); [by rewrite Hs|].
    eexists 1, _, _; (split; [reflexivity|]); (split; [reflexivity|]); (split; [reflexivity|]); (split; [by left|]);
      (split; [reflexivity|]); (split; [reflexivity|]); (split; [|split; [reflexivity|]]); repeat constructor; vm_compute; congruence.
  - eapply (matching_of_state _ _ (JObj [("ta_state", reparse hand_bits_regressor)]%string)); [by rewrite Hs|].
    eapply matching_by_check; [vm_compute; reflexivity|vm_compute; reflexivity|lia|vm_compute; reflexivity|vm_compute; reflexivity|vm_compute; reflexivity].
Qed.
Definition n2_args : clf_args := ClfArgs 4 2 (f32_of_Z 3) 5 true 7 true 1 false "auto" 16 (Some 42).
Definition n2_a : clf_args := clf_norm 4 99 n2_args.
Definition n2_params : params := params_of (make_classifier_params_from_args 4 99 n2_args).
Definition n2_ops : list (clf_op BM) := [CFit BM n1_X [1; 0] 0 0].
Definition hand_bits : json := Eval vm_compute in with_polarity hand_state 8 [1; 2; 4; 0; 2; 0; 0; 1].
Example C84_example_classifier_bitwise : exists e t doc t' doc', clf_created n2_a n2_params /\ 2 <= ca_states n2_a /\ clf_made_text n2_params /\ finite_C1 n2_params /\
  clf_history toy_sch BM (bw_view mt42) n2_params n2_ops [CRStatus S_OK] e /\ clf_dims_of n2_ops [CRStatus S_OK] = Some (2%nat, 3%nat) /\
  clf_to_json_string bitwise_codec toy_sch e = Ret t /\ json_text t doc /\ json_text t' doc' /\ same_rest doc doc' /\
  sound_state (Z.of_nat 2 * ca_clauses n2_a) (Z.of_nat 3) (ca_weighted n2_a) (ca_max_weight n2_a) doc' /\
  matching_polarity (Z.of_nat 2 * ca_clauses n2_a) (Z.of_nat 3) doc' /\
  member doc' "ta_state" = Some (reparse hand_bits).
Proof.
  assert (clf_created n2_a n2_params) as Hc by (apply clf_factory_created; [by constructor|vm_compute; reflexivity]).
  assert (clf_made_text n2_params) as Hm by (exists 4, 99; left; exists n2_args; split; [by constructor|vm_compute; reflexivity]).
  assert (finite_C1 n2_params) as Hf by (intros x HH; vm_compute in HH; discriminate HH).
  destruct (results_ret (clf_run toy_sch BM (construct toy_sch BM n2_params) n2_ops) [CRStatus S_OK]) as [e E]; [vm_compute; reflexivity|].
  assert (clf_history toy_sch BM (bw_view mt42) n2_params n2_ops [CRStatus S_OK] e) as Hh.
  { split; [|exact E]. clear E. constructor; [|constructor]. cbn [clf_op_phys]. repeat constructor; try reflexivity; apply block_ok_lt; vm_compute; reflexivity. }
  clear E.
  destruct (clf_writable _ _ _ _ _ fy_shuffle_ok BM (bw_view mt42) bitwise_codec ltac:(constructor) toy_sch n2_a n2_params n2_ops _ e toy_sch_ok Hc
    (proj1 (proj2 (clf_made_facts _ (clf_made_text_made _ Hm)))) (clf_made_utf8 _ Hm) Hh) as (d & Ed & Hw).
  destruct (dump_text d Hw) as (t & Et & Ht).
  destruct (other_state bitwise_codec "classifier" toy_sch e d hand_bits Ed Hw) as (t' & doc' & Ht' & Hr & Hs).
  { unfold hand_bits; cbn [writable]; split_and!; repeat constructor; try lit; cbn; lia. }
  exists e, t, (reparse d), t', doc'. split; [exact Hc|]. split; [vm_compute; discriminate|]. split; [exact Hm|]. split; [exact Hf|]. split; [exact Hh|]. split; [reflexivity|].
  split; [unfold clf_to_json_string; exact (eq_trans (f_equal (fun o => obind o dump) Ed) Et)|]. split; [exact Ht|]. split; [exact Ht'|]. split; [exact Hr|].
  split; [|split; [|exact Hs]].
  - eapply (sound_of_state _ _ _ _ (JObj [("ta_state", reparse hand_bits)]%string)); [by rewrite Hs|].
    eexists 1, _, _; (split; [reflexivity|]); (split; [reflexivity|]); (split; [reflexivity|]); (split; [by left|]);
      (split; [reflexivity|]); (split; [reflexivity|]); (split; [|split; [reflexivity|]]); repeat constructor; vm_compute; congruence.
  - eapply (matching_of_state _ _ (JObj [("ta_state", reparse hand_bits)]%string)); [by rewrite Hs|].
    eapply matching_by_check; [vm_compute; reflexivity|vm_compute; reflexivity|vm_compute; discriminate|vm_compute; reflexivity|vm_compute; reflexivity|vm_compute; reflexivity].
Qed.

(** What the library saves is such a document itself: the texts of fitted estimators have a sound learning state (when the matrix has less
    than 2^32 cells, padding included), automata between -number_of_states and number_of_states - 1 and, from bitwise estimators, bits that
    match them.  The examples above meet the hypotheses: 16 * (3 * 1 + 63) and 4 * (3 * 1 + 63) cells. *)
Theorem C84_saved_classifier : forall sh l fuel b1 b2, shuffle_ok sh -> forall S, sch_ok S ->
  forall a p os rs e L nf t doc, clf_created a p -> clf_made_text p ->
  clf_history S (classic (mt_rnd sh l fuel b1 b2)) (cl_view _) p os rs e -> clf_dims_of os rs = Some (L, nf) ->
  clf_to_json_string classic_codec S e = Ret t -> json_text t doc ->
  (exists w, bytes_of doc = Some w /\ (Z.of_nat L * ca_clauses a * (Z.of_nat nf * w + 63) < 2 ^ 32 ->
    sound_state (Z.of_nat L * ca_clauses a) (Z.of_nat nf) (ca_weighted a) (ca_max_weight a) doc)) /\
  (exists rows, rows_of doc = Some rows /\ Forall (Forall (fun z => - ca_states a <= z < ca_states a)) rows).
Proof. exact classic_clf_saved. Qed.
Print Assumptions C84_saved_classifier.

Theorem C84_saved_regressor : forall sh l fuel b1 b2, shuffle_ok sh -> forall S, sch_ok S ->
  forall a p os rs e nf t doc, reg_created a p -> reg_made_text p ->
  reg_history S (classic (mt_rnd sh l fuel b1 b2)) (cl_view _) p os rs e -> reg_dims_of os rs = Some nf ->
  reg_to_json_string classic_codec S e = Ret t -> json_text t doc ->
  (exists w, bytes_of doc = Some w /\ (ra_clauses a * (Z.of_nat nf * w + 63) < 2 ^ 32 ->
    sound_state (ra_clauses a) (Z.of_nat nf) (ra_weighted a) (ra_max_weight a) doc)) /\
  (exists rows, rows_of doc = Some rows /\ Forall (Forall (fun z => - ra_states a <= z < ra_states a)) rows).
Proof. exact classic_reg_saved. Qed.
Print Assumptions C84_saved_regressor.

Theorem C84_saved_classifier_bitwise : forall sh l fuel b1 b2, shuffle_ok sh -> forall S, sch_ok S ->
  forall a p os rs e L nf t doc, clf_created a p -> 2 <= ca_states a -> clf_made_text p ->
  clf_history S (Algo.bitwise (mt_rnd sh l fuel b1 b2)) (bw_view _) p os rs e -> clf_dims_of os rs = Some (L, nf) ->
  clf_to_json_string bitwise_codec S e = Ret t -> json_text t doc ->
  (exists w, bytes_of doc = Some w /\ (Z.of_nat L * ca_clauses a * (Z.of_nat nf * w + 63) < 2 ^ 32 ->
    sound_state (Z.of_nat L * ca_clauses a) (Z.of_nat nf) (ca_weighted a) (ca_max_weight a) doc)) /\
  (exists rows, rows_of doc = Some rows /\ Forall (Forall (fun z => - ca_states a <= z < ca_states a)) rows) /\
  matching_polarity (Z.of_nat L * ca_clauses a) (Z.of_nat nf) doc.
Proof. exact bitwise_clf_saved. Qed.
Print Assumptions C84_saved_classifier_bitwise.

Theorem C84_saved_regressor_bitwise : forall sh l fuel b1 b2, shuffle_ok sh -> forall S, sch_ok S ->
  forall a p os rs e nf t doc, reg_created a p -> 2 <= ra_states a -> reg_made_text p ->
  reg_history S (Algo.bitwise (mt_rnd sh l fuel b1 b2)) (bw_view _) p os rs e -> reg_dims_of os rs = Some nf ->
  reg_to_json_string bitwise_codec S e = Ret t -> json_text t doc ->
  (exists w, bytes_of doc = Some w /\ (ra_clauses a * (Z.of_nat nf * w + 63) < 2 ^ 32 ->
    sound_state (ra_clauses a) (Z.of_nat nf) (ra_weighted a) (ra_max_weight a) doc)) /\
  (exists rows, rows_of doc = Some rows /\ Forall (Forall (fun z => - ra_states a <= z < ra_states a)) rows) /\
  matching_polarity (ra_clauses a) (Z.of_nat nf) doc.
Proof. exact bitwise_reg_saved. Qed.
Print Assumptions C84_saved_regressor_bitwise.
