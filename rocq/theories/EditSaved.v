(** * The documents the library saves are among those [sound_state] and [matching_polarity] describe. *)
From Verif Require Import FloatFacts.
From Verif Require Import TotalFacts StepFacts PropFacts OneStep InvFacts.
From Verif Require Import StateProps TextIO JsonGrammar TextState TextSpec TextProps.
From Verif Require Import DumpProps TextFacts JsonFacts Document DocProps EditProps EditInst.
From stdpp Require Import list option.
Local Open Scope Z_scope.

(** ** Polarity *)
Lemma saved_polarity {R : rnd} kind (S : sch) (e : est bmatrix (eS S) irng frng) doc : nm_wf (ta_matrix (e_ta e)) ->
  to_json bitwise_codec S kind e = Ret doc ->
  polarity_of (reparse doc) = Some (Z.of_nat (bm_rows (ta_pol (e_ta e))), Z.of_nat (bm_cols (ta_pol (e_ta e))), map Z.of_N (bm_data (ta_pol (e_ta e)))).
Proof.
  intros Hwf H. unfold to_json, ta_to_json in H. rewrite nm_saved in H by done. cbn [obind] in H. injection H as <-.
  unfold polarity_of. erewrite member_saved by reflexivity. cbn [mbind option_bind]. erewrite member_saved by reflexivity. cbn [mbind option_bind].
  set (p := ta_pol (e_ta e)).
  assert (member (reparse (bm_to_json p)) "rows"%string = Some (reparse (JUns (Z.of_nat (bm_rows p))))) as E1 by (apply member_saved; reflexivity).
  assert (member (reparse (bm_to_json p)) "cols"%string = Some (reparse (JUns (Z.of_nat (bm_cols p))))) as E2 by (apply member_saved; reflexivity).
  assert (member (reparse (bm_to_json p)) "data"%string = Some (reparse (JArr (map JUns (map Z.of_N (bm_data p)))))) as E3
    by (rewrite map_map; apply member_saved; reflexivity).
  rewrite E1. cbn [mbind option_bind]. change (integer (reparse (JUns (Z.of_nat (bm_rows p))))) with (Some (Z.of_nat (bm_rows p))). cbn [mbind option_bind].
  rewrite E2. cbn [mbind option_bind]. change (integer (reparse (JUns (Z.of_nat (bm_cols p))))) with (Some (Z.of_nat (bm_cols p))). cbn [mbind option_bind].
  rewrite E3. cbn [mbind option_bind]. rewrite (integers_back JUns (map Z.of_N (bm_data p)) (fun z => eq_refl)). reflexivity.
Qed.
Lemma full_matching (R : rnd) kind (S : sch) (e : est bmatrix (eS S) irng frng) w N n nf doc : bw_full R w N n nf (ta_matrix (e_ta e)) (ta_pol (e_ta e)) ->
  (0 < n)%nat -> rows_of (reparse doc) = Some (map (nm_row (ta_matrix (e_ta e))) (seq 0 (nm_rows (ta_matrix (e_ta e))))) ->
  to_json bitwise_codec S kind e = Ret doc -> matching_polarity (Z.of_nat (2 * n)) (Z.of_nat nf) (reparse doc).
Proof.
  intros [((Hg & (Hb1 & Hb2 & Hb3) & Hr1 & Hr2) & Ew & Er & Ec & Hpad & Hrb) Hcell] Hn Hrows Ed. cbn [fst snd] in *.
  assert (Z.of_nat nf <= int_max) as Hnf by (rewrite <- Ec; apply alloc_cols; [apply Hg|lia]).
  set (m := ta_matrix (e_ta e)) in *. set (q := ta_pol (e_ta e)) in *.
  pose proof (saved_polarity (R := R) kind S e doc (proj1 Hg) Ed) as Hp. fold q in Hp. rewrite Hr1, Hr2, Er, Ec in Hp.
  eexists _, _. split; [exact Hrows|]. split; [exact Hp|].
  assert (row_blocks 64 nf = blocks_per_row (Z.of_nat nf)) as EB by (by apply row_blocks_small). rewrite EB in Hrb.
  set (B := blocks_per_row (Z.of_nat nf)) in *.
  assert (0 <= B) as HB0 by (unfold B, blocks_per_row; pose proof (Z.div_pos (Z.of_nat nf + 511) 512 ltac:(lia) ltac:(lia)); lia).
  split; [rewrite map_length, Hb2, Hr1, Er, Hrb; nia|]. split.
  - apply List.Forall_map. eapply list.Forall_impl; [exact Hb3|]. intros b Hb%block_ok_lt. cbv beta. split; [lia|]. change (2 ^ 64) with (Z.of_N (2 ^ N.of_nat 64)). by apply N2Z.inj_lt.
  - intros r c Hr Hc.
    assert (bm_bit 64 q (Z.to_nat r) (Z.to_nat c) = Z.testbit (nth (Z.to_nat (r * B + c / 64)) (map Z.of_N (bm_data q)) 0) (c mod 64)) as <-.
    { unfold bm_bit. rewrite Hrb.
      replace (Z.to_nat (r * B + c / 64)) with (Z.to_nat r * Z.to_nat B + Z.to_nat c / 64)%nat.
      2:{ pose proof (Z.div_pos c 64 ltac:(lia) ltac:(lia)) as Hd. pose proof (Z.mul_nonneg_nonneg r B ltac:(lia) HB0) as Hm.
        rewrite Z2Nat.inj_add, Z2Nat.inj_mul by lia. f_equal. rewrite Z2Nat.inj_div by lia. reflexivity. }
      rewrite nth_lookup, list_lookup_fmap. destruct (bm_data q !! (Z.to_nat r * Z.to_nat B + Z.to_nat c / 64)%nat) as [b|] eqn:Eb; cbn [fmap option_fmap option_map default]; unfold id.
      - replace (c mod 64) with (Z.of_N (N.of_nat (Z.to_nat c mod 64))); [by rewrite Z.testbit_of_N|].
        rewrite nat_N_Z, Nat2Z.inj_mod, Z2Nat.id by lia. reflexivity.
      - by rewrite Z.bits_0. }
    assert (nth (Z.to_nat c) (nth (Z.to_nat r) (map (nm_row m) (seq 0 (nm_rows m))) []) (-1) = if decide (Z.to_nat c < nf)%nat then nm_cell m (Z.to_nat r) (Z.to_nat c) else -1) as ->.
    { rewrite Er. rewrite (nth_lookup _ (Z.to_nat r)), list_lookup_fmap, lookup_seq_lt by lia. cbn [fmap option_fmap option_map default]. unfold id, nm_row.
      rewrite nth_lookup, list_lookup_fmap, Ec. case_decide; [by rewrite lookup_seq_lt|by rewrite lookup_seq_ge by lia]. }
    case_decide as Hcc.
    + exact (proj2 (Hcell (Z.to_nat r) (Z.to_nat c) ltac:(lia) Hcc)).
    + apply Hpad; [lia|]. rewrite Hrb. lia.
Qed.

(** ** The documents *)
Open Scope string_scope.
Open Scope list_scope.
Open Scope Z_scope.
Lemma classic_clf_saved : forall sh l fuel b1 b2, shuffle_ok sh -> forall S, sch_ok S ->
  forall a p os rs e L nf t doc, clf_created a p -> clf_made_text p ->
  clf_history S (classic (mt_rnd sh l fuel b1 b2)) (cl_view _) p os rs e -> clf_dims_of os rs = Some (L, nf) ->
  clf_to_json_string classic_codec S e = Ret t -> json_text t doc ->
  (exists w, bytes_of doc = Some w /\ (Z.of_nat L * ca_clauses a * (Z.of_nat nf * w + 63) < 2 ^ 32 ->
    sound_state (Z.of_nat L * ca_clauses a) (Z.of_nat nf) (ca_weighted a) (ca_max_weight a) doc)) /\
  (exists rows, rows_of doc = Some rows /\ Forall (Forall (fun z => - ca_states a <= z < ca_states a)) rows).
Proof.
  intros sh l fuel b1 b2 Hsh S HS a p os rs e L nf t doc Hc Hm Hh Hd Et Ht.
  destruct (clf_text sh l fuel b1 b2 Hsh (classic (mt_rnd sh l fuel b1 b2)) (cl_view _) classic_codec (codec_classic _) S p os rs e HS Hm Hh) as (d & t1 & Ej & Et1 & Htx).
  pose proof (eq_trans (eq_sym Et) Et1) as Eq. injection Eq as <-.
  assert (doc = reparse d) as -> by exact (stands_unique t _ _ (text_stands _ _ Ht) (text_stands _ _ Htx)).
  pose proof (clf_classic_at (R := (mt_rnd sh l fuel b1 b2)) irng_ok frng_ok (mt_rnd_ok sh l fuel b1 b2 Hsh) S HS a p os rs e Hc Hh) as Hat. rewrite Hd in Hat.
  pose proof (clf_saved_sound sh l fuel b1 b2 (classic (mt_rnd sh l fuel b1 b2)) (cl_view _) classic_codec (codec_classic _) 1
    (cl_inv (mt_rnd sh l fuel b1 b2)) (fun _ _ _ => True) (cl_HLaws sh l fuel b1 b2 Hsh) (cl_HInv sh l fuel b1 b2) (cl_Hread sh l fuel b1 b2)
    S a p e L nf d Hc Hat Ej) as [H1 H2].
  exact (conj H1 H2).
Qed.
Lemma classic_reg_saved : forall sh l fuel b1 b2, shuffle_ok sh -> forall S, sch_ok S ->
  forall a p os rs e nf t doc, reg_created a p -> reg_made_text p ->
  reg_history S (classic (mt_rnd sh l fuel b1 b2)) (cl_view _) p os rs e -> reg_dims_of os rs = Some nf ->
  reg_to_json_string classic_codec S e = Ret t -> json_text t doc ->
  (exists w, bytes_of doc = Some w /\ (ra_clauses a * (Z.of_nat nf * w + 63) < 2 ^ 32 ->
    sound_state (ra_clauses a) (Z.of_nat nf) (ra_weighted a) (ra_max_weight a) doc)) /\
  (exists rows, rows_of doc = Some rows /\ Forall (Forall (fun z => - ra_states a <= z < ra_states a)) rows).
Proof.
  intros sh l fuel b1 b2 Hsh S HS a p os rs e nf t doc Hc Hm Hh Hd Et Ht.
  destruct (reg_text sh l fuel b1 b2 Hsh (classic (mt_rnd sh l fuel b1 b2)) (cl_view _) classic_codec (codec_classic _) S p os rs e HS Hm Hh) as (d & t1 & Ej & Et1 & Htx).
  pose proof (eq_trans (eq_sym Et) Et1) as Eq. injection Eq as <-.
  assert (doc = reparse d) as -> by exact (stands_unique t _ _ (text_stands _ _ Ht) (text_stands _ _ Htx)).
  pose proof (reg_classic_at (R := (mt_rnd sh l fuel b1 b2)) irng_ok frng_ok (mt_rnd_ok sh l fuel b1 b2 Hsh) S HS a p os rs e Hc Hh) as Hat. rewrite Hd in Hat.
  pose proof (reg_saved_sound sh l fuel b1 b2 (classic (mt_rnd sh l fuel b1 b2)) (cl_view _) classic_codec (codec_classic _) 1
    (cl_inv (mt_rnd sh l fuel b1 b2)) (fun _ _ _ => True) (cl_HLaws sh l fuel b1 b2 Hsh) (cl_HInv sh l fuel b1 b2) (cl_Hread sh l fuel b1 b2)
    S a p e nf d Hc Hat Ej) as [H1 H2].
  exact (conj H1 H2).
Qed.
Lemma bitwise_clf_saved : forall sh l fuel b1 b2, shuffle_ok sh -> forall S, sch_ok S ->
  forall a p os rs e L nf t doc, clf_created a p -> 2 <= ca_states a -> clf_made_text p ->
  clf_history S (Algo.bitwise (mt_rnd sh l fuel b1 b2)) (bw_view _) p os rs e -> clf_dims_of os rs = Some (L, nf) ->
  clf_to_json_string bitwise_codec S e = Ret t -> json_text t doc ->
  (exists w, bytes_of doc = Some w /\ (Z.of_nat L * ca_clauses a * (Z.of_nat nf * w + 63) < 2 ^ 32 ->
    sound_state (Z.of_nat L * ca_clauses a) (Z.of_nat nf) (ca_weighted a) (ca_max_weight a) doc)) /\
  (exists rows, rows_of doc = Some rows /\ Forall (Forall (fun z => - ca_states a <= z < ca_states a)) rows) /\
  matching_polarity (Z.of_nat L * ca_clauses a) (Z.of_nat nf) doc.
Proof.
  intros sh l fuel b1 b2 Hsh S HS a p os rs e L nf t doc Hc HN Hm Hh Hd Et Ht.
  destruct (clf_text sh l fuel b1 b2 Hsh (Algo.bitwise (mt_rnd sh l fuel b1 b2)) (bw_view _) bitwise_codec (codec_bitwise _) S p os rs e HS Hm Hh) as (d & t1 & Ej & Et1 & Htx).
  pose proof (eq_trans (eq_sym Et) Et1) as Eq. injection Eq as <-.
  assert (doc = reparse d) as -> by exact (stands_unique t _ _ (text_stands _ _ Ht) (text_stands _ _ Htx)).
  pose proof (clf_bitwise_at (R := (mt_rnd sh l fuel b1 b2)) irng_ok frng_ok (mt_rnd_ok sh l fuel b1 b2 Hsh) S HS a p os rs e Hc HN Hh) as Hat. rewrite Hd in Hat.
  pose proof (clf_saved_sound sh l fuel b1 b2 (Algo.bitwise (mt_rnd sh l fuel b1 b2)) (bw_view _) bitwise_codec (codec_bitwise _) 2
    (bw_full (mt_rnd sh l fuel b1 b2)) matching_polarity (bw_HLaws sh l fuel b1 b2 Hsh) (bw_HInv sh l fuel b1 b2) (bw_Hread sh l fuel b1 b2)
    S a p e L nf d Hc Hat Ej) as [H1 H2].
  split; [exact H1|]. split; [exact H2|].
  destruct Hat as [(Hv & Hdim & [HI _ _ _ _ _ _]) _]. cbn [fst snd] in *. destruct (clf_opl_facts a Hv) as (Ecl & _).
  pose proof HI as [((Hg & _) & _) _].
  destruct (saved_parts (R := (mt_rnd sh l fuel b1 b2)) (Algo.bitwise (mt_rnd sh l fuel b1 b2)) (bw_view _) bitwise_codec (codec_bitwise _) "classifier" S e (proj1 Hg)) as (d' & Ed' & Hr & _).
  assert (d' = d) as -> by (pose proof (eq_trans (eq_sym Ed') Ej) as E; by injection E).
  replace (Z.of_nat L * ca_clauses a) with (Z.of_nat (2 * (L * clf_opl a))) by (rewrite Ecl, ?Nat2Z.inj_mul; ring).
  refine (full_matching (mt_rnd sh l fuel b1 b2) "classifier" S e _ _ (L * clf_opl a) nf d HI _ Hr Ej).
  pose proof (cd_L _ _ _ _ Hdim). destruct (clf_opl_facts a Hv) as (_ & _ & _ & Ho). nia.
Qed.
Lemma bitwise_reg_saved : forall sh l fuel b1 b2, shuffle_ok sh -> forall S, sch_ok S ->
  forall a p os rs e nf t doc, reg_created a p -> 2 <= ra_states a -> reg_made_text p ->
  reg_history S (Algo.bitwise (mt_rnd sh l fuel b1 b2)) (bw_view _) p os rs e -> reg_dims_of os rs = Some nf ->
  reg_to_json_string bitwise_codec S e = Ret t -> json_text t doc ->
  (exists w, bytes_of doc = Some w /\ (ra_clauses a * (Z.of_nat nf * w + 63) < 2 ^ 32 ->
    sound_state (ra_clauses a) (Z.of_nat nf) (ra_weighted a) (ra_max_weight a) doc)) /\
  (exists rows, rows_of doc = Some rows /\ Forall (Forall (fun z => - ra_states a <= z < ra_states a)) rows) /\
  matching_polarity (ra_clauses a) (Z.of_nat nf) doc.
Proof.
  intros sh l fuel b1 b2 Hsh S HS a p os rs e nf t doc Hc HN Hm Hh Hd Et Ht.
  destruct (reg_text sh l fuel b1 b2 Hsh (Algo.bitwise (mt_rnd sh l fuel b1 b2)) (bw_view _) bitwise_codec (codec_bitwise _) S p os rs e HS Hm Hh) as (d & t1 & Ej & Et1 & Htx).
  pose proof (eq_trans (eq_sym Et) Et1) as Eq. injection Eq as <-.
  assert (doc = reparse d) as -> by exact (stands_unique t _ _ (text_stands _ _ Ht) (text_stands _ _ Htx)).
  pose proof (reg_bitwise_at (R := (mt_rnd sh l fuel b1 b2)) irng_ok frng_ok (mt_rnd_ok sh l fuel b1 b2 Hsh) S HS a p os rs e Hc HN Hh) as Hat. rewrite Hd in Hat.
  pose proof (reg_saved_sound sh l fuel b1 b2 (Algo.bitwise (mt_rnd sh l fuel b1 b2)) (bw_view _) bitwise_codec (codec_bitwise _) 2
    (bw_full (mt_rnd sh l fuel b1 b2)) matching_polarity (bw_HLaws sh l fuel b1 b2 Hsh) (bw_HInv sh l fuel b1 b2) (bw_Hread sh l fuel b1 b2)
    S a p e nf d Hc Hat Ej) as [H1 H2].
  split; [exact H1|]. split; [exact H2|].
  destruct Hat as [(Hv & Hdim & [HI _ _ _ _ _]) _]. cbn [fst snd] in *. destruct (reg_n_facts a Hv) as (Ecl & _ & Hn0).
  pose proof HI as [((Hg & _) & _) _].
  destruct (saved_parts (R := (mt_rnd sh l fuel b1 b2)) (Algo.bitwise (mt_rnd sh l fuel b1 b2)) (bw_view _) bitwise_codec (codec_bitwise _) "regressor" S e (proj1 Hg)) as (d' & Ed' & Hr & _).
  assert (d' = d) as -> by (pose proof (eq_trans (eq_sym Ed') Ej) as E; by injection E).
  replace (ra_clauses a) with (Z.of_nat (2 * (reg_n a))) by (rewrite Ecl, ?Nat2Z.inj_mul; ring).
  refine (full_matching (mt_rnd sh l fuel b1 b2) "regressor" S e _ _ (reg_n a) nf d HI _ Hr Ej).
  lia.
Qed.
