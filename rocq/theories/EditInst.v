(** * Loading edited documents: the two algorithms. *)
From Verif Require Import FloatFacts.
From Verif Require Import TotalFacts StepFacts PropFacts OneStep.
From Verif Require Import StateProps TextIO JsonGrammar TextState TextSpec TextProps.
From Verif Require Import DumpProps TextFacts JsonFacts Document DocProps EditProps.
From stdpp Require Import list option.
Local Open Scope Z_scope.

(** ** The polarity of a document *)
Lemma vec_integers64 j ws : integers j = Some ws -> Forall (fun v => 0 <= v < 2 ^ 64) ws -> j_vec j_u64 j = Ret ws.
Proof.
  change (2 ^ 64) with 18446744073709551616.
  intros H HF. apply integers_array in H as (l & -> & H). cbn [j_vec]. induction H as [|j z l zs Hj H IH]; [done|].
  apply list.Forall_cons in HF as [Hz HF]. cbn [Base.omap]. rewrite (u64_integer j z Hj Hz). cbn [obind]. by rewrite IH.
Qed.
Lemma row_blocks_small nf : Z.of_nat nf <= int_max -> row_blocks 64 nf = blocks_per_row (Z.of_nat nf).
Proof.
  unfold int_max. intros H. unfold row_blocks, blocks_per_row. change (64 / (Z.of_nat 64 / 8)) with 8.
  replace (Z.of_nat nf + 512 - 1) with (Z.of_nat nf + 511) by lia. rewrite (u32_id (Z.of_nat nf + 511)) by lia.
  pose proof (Z.mul_div_le (Z.of_nat nf + 511) 512 ltac:(lia)). pose proof (Z.div_pos (Z.of_nat nf + 511) 512 ltac:(lia) ltac:(lia)).
  apply u32_id. lia.
Qed.
Lemma bm_read jp jr jc jd n nf blocks : member jp "rows" = Some jr -> integer jr = Some (Z.of_nat n) -> member jp "cols" = Some jc ->
  integer jc = Some (Z.of_nat nf) -> member jp "data" = Some jd -> integers jd = Some blocks ->
  Z.of_nat n < 4294967296 -> Z.of_nat nf <= int_max -> Forall (fun b => 0 <= b < 2 ^ 64) blocks ->
  bm_from_json jp = Ret (BM n nf (Z.to_nat (row_blocks 64 nf)) (map Z.to_N blocks)).
Proof.
  intros Er Er' Ec Ec' Ed Ed' Hn Hf HF. unfold int_max in Hf. unfold bm_from_json.
  rewrite (at_member _ _ _ Er). cbn [obind]. rewrite (u32_integer _ _ Er') by lia. cbn [obind].
  rewrite (at_member _ _ _ Ec). cbn [obind]. rewrite (u32_integer _ _ Ec') by lia. cbn [obind].
  rewrite (at_member _ _ _ Ed). cbn [obind]. rewrite (vec_integers64 _ _ Ed' HF). cbn [obind].
  rewrite !Nat2Z.id. reflexivity.
Qed.
Lemma block_of b : 0 <= b < 2 ^ 64 -> block_ok 64 (Z.to_N b).
Proof.
  intros [H0 H]. apply block_ok_lt, N2Z.inj_lt. rewrite Z2N.id by done. exact H.
Qed.
Lemma polarity_read n nf doc m rows jt : (0 < n)%nat -> Z.of_nat (2 * n) <= 2 * int_max -> Z.of_nat nf <= int_max -> nm_rows m = (2 * n)%nat -> nm_cols m = nf ->
  rows_of doc = Some rows -> map (nm_row m) (seq 0 (nm_rows m)) = rows -> member doc "ta_state"%string = Some jt ->
  matching_polarity (Z.of_nat (2 * n)) (Z.of_nat nf) doc ->
  exists q, pc_read bitwise_codec jt = Ret q /\ bm_wf 64 q /\ bm_rows q = (2 * n)%nat /\ bm_cols q = nf /\ bm_row_blocks q = Z.to_nat (row_blocks 64 nf) /\
    bm_clear_padding 64 q /\ forall r c, (r < 2 * n)%nat -> (c < nf)%nat -> bm_bit 64 q r c = (0 <=? nm_cell m r c).
Proof.
  intros Hn Hn2 Hnf Fr Fc Erows Frows Et (rows' & blocks & Erows' & Epol & Hlen & HF & Hbit).
  rewrite Erows in Erows'. injection Erows' as <-. unfold polarity_of in Epol. rewrite Et in Epol. cbn [mbind option_bind] in Epol.
  destruct (member jt "polarity"%string) as [jp|] eqn:Ep; [|discriminate Epol]. cbn [mbind option_bind] in Epol.
  destruct (member jp "rows"%string) as [jr|] eqn:Er; [|discriminate Epol]. cbn [mbind option_bind] in Epol.
  destruct (integer jr) as [zr|] eqn:Er'; [|discriminate Epol]. cbn [mbind option_bind] in Epol.
  destruct (member jp "cols"%string) as [jc|] eqn:Ec; [|discriminate Epol]. cbn [mbind option_bind] in Epol.
  destruct (integer jc) as [zc|] eqn:Ec'; [|discriminate Epol]. cbn [mbind option_bind] in Epol.
  destruct (member jp "data"%string) as [jd|] eqn:Ed; [|discriminate Epol]. cbn [mbind option_bind] in Epol.
  destruct (integers jd) as [bs|] eqn:Ed'; [|discriminate Epol]. cbn [mbind option_bind] in Epol.
  injection Epol as -> -> ->.
  set (q := BM (2 * n) nf (Z.to_nat (row_blocks 64 nf)) (map Z.to_N blocks)).
  exists q. split.
  { cbn [pc_read bitwise_codec]. rewrite (at_member _ _ _ Ep). cbn [obind].
    apply (bm_read jp jr jc jd (2 * n) nf blocks); try done. unfold int_max in *. lia. }
  set (B := blocks_per_row (Z.of_nat nf)) in *.
  assert (row_blocks 64 nf = B) as EB by (by apply row_blocks_small).
  assert (0 <= B /\ Z.of_nat nf <= 64 * B) as [HB0 HB].
  { unfold B, blocks_per_row. pose proof (Z.div_pos (Z.of_nat nf + 511) 512 ltac:(lia) ltac:(lia)).
    pose proof (Z.mod_pos_bound (Z.of_nat nf + 511) 512 ltac:(lia)). pose proof (Z.div_mod (Z.of_nat nf + 511) 512 ltac:(lia)). lia. }
  assert (length blocks = (2 * n * Z.to_nat B)%nat) as Hlb by nia.
  assert (forall r c, (r < 2 * n)%nat -> (c < Z.to_nat B * 64)%nat ->
    bm_bit 64 q r c = (0 <=? nth c (nth r rows []) (-1))) as Hb.
  { intros r c Hr Hc. unfold bm_bit. cbn [q bm_data bm_row_blocks]. rewrite EB. rewrite list_lookup_fmap.
    assert (c / 64 < Z.to_nat B)%nat as Hq by (apply Nat.div_lt_upper_bound; lia).
    destruct (lookup_lt_is_Some_2 blocks (r * Z.to_nat B + c / 64)%nat) as [b Eb]; [nia|]. rewrite Eb. cbn [fmap option_fmap option_map].
    specialize (Hbit (Z.of_nat r) (Z.of_nat c) ltac:(lia) ltac:(lia)). rewrite !Nat2Z.id in Hbit. rewrite <- Hbit.
    change 64 with (Z.of_nat 64). rewrite <- Nat2Z.inj_div, <- Nat2Z.inj_mod.
    replace (Z.to_nat (Z.of_nat r * B + Z.of_nat (c / 64))) with (r * Z.to_nat B + c / 64)%nat by nia.
    rewrite nth_lookup, Eb. cbn [default]. unfold id. rewrite list.Forall_lookup in HF. pose proof (HF _ _ Eb) as Hb0. cbv beta in Hb0.
    rewrite <- Z.testbit_of_N, Z2N.id by lia. by rewrite nat_N_Z. }
  assert (forall r c, (r < 2 * n)%nat -> nth c (nth r rows []) (-1) = if decide (c < nf)%nat then nm_cell m r c else -1) as Hcell.
  { intros r c Hr. rewrite <- Frows, Fr. rewrite (nth_lookup _ r), list_lookup_fmap, lookup_seq_lt by done. cbn [fmap option_fmap option_map default]. unfold id, nm_row.
    rewrite nth_lookup, list_lookup_fmap, Fc. case_decide; [by rewrite lookup_seq_lt|by rewrite lookup_seq_ge by lia]. }
  split; [|split; [done|]; split; [done|]; split; [done|]; split].
  - split; [|split]; cbn [q bm_cols bm_row_blocks bm_data bm_rows]; rewrite ?EB.
    + lia.
    + by rewrite map_length.
    + apply List.Forall_map. eapply list.Forall_impl; [exact HF|]. intros b Hbb. apply block_of. exact Hbb.
  - intros r c Hr Hc. cbn [q bm_cols bm_row_blocks bm_rows] in Hr, Hc. rewrite EB in Hc. rewrite Hb by lia. rewrite Hcell by done. rewrite decide_False by lia. done.
  - intros r c Hr Hc. rewrite Hb by lia. rewrite Hcell by done. by rewrite decide_True.
Qed.

Section Inst.
  Context (sh : irng -> nat -> list nat * irng) (l : bool) (fuel : nat) (b1 b2 : Z -> float32) (Hsh : shuffle_ok sh).
  Notation R := (mt_rnd sh l fuel b1 b2).
  Let HR : rnd_ok R irng_ok frng_ok := mt_rnd_ok sh l fuel b1 b2 Hsh.

  (** ** The classic algorithm *)
  Lemma cl_HLaws w N : (w = 8 \/ w = 16 \/ w = 32) -> 1 <= N <= 2 ^ (w - 1) ->
    exists E1n E1p E2, laws (R := R) (classic R) irng_ok (cl_view R) True True w N (cl_inv R w N) E1n E1p E2.
  Proof. intros Hw HN. eexists _, _, _. by apply (classic_laws R irng_ok frng_ok HR). Qed.
  Lemma cl_HInv w N n nf m q : cl_inv R w N n nf m q -> nm_good m /\ nm_w m = w /\ nm_rows m = (2 * n)%nat /\ nm_cols m = nf /\
    forall r c, (r < 2 * n)%nat -> (c < nf)%nat -> - N <= nm_cell m r c <= N - 1.
  Proof. exact id. Qed.
  Lemma cl_Hread n nf weighted maxw doc : (0 < n)%nat -> Z.of_nat (2 * n) <= 2 * int_max -> 1 <= maxw <= int_max ->
    sound_state (Z.of_nat (2 * n)) (Z.of_nat nf) weighted maxw doc -> True ->
    exists jt w m q rows ws, member doc "ta_state"%string = Some jt /\ ta_from_json classic_codec jt = Ret (TA m ws q) /\ (w = 8 \/ w = 16 \/ w = 32) /\
      rows_of doc = Some rows /\ weights_of doc = Some ws /\ nm_good m /\ nm_w m = w /\ nm_rows m = (2 * n)%nat /\ nm_cols m = nf /\
      map (nm_row m) (seq 0 (nm_rows m)) = rows /\ weights_ok weighted maxw n ws /\ bytes_of doc = Some (w / 8) /\
      by_sign (classic R) (cl_view R) n nf m q /\
      forall N, (forall r c, (r < nm_rows m)%nat -> (c < nm_cols m)%nat -> - N <= nm_cell m r c <= N - 1) -> cl_inv R w N n nf m q.
  Proof.
    intros Hn _ Hmax Hs _. destruct (ta_read n nf weighted maxw doc Hn Hmax Hs)
      as (jt & w & m & rows & ws & Et & Eta & Hw & Erows & Ews & Hgood & Fw & Fr & Fc & Frows & Hws & Hby).
    exists jt, w, m, tt, rows, ws. split; [done|]. split; [exact (Eta unit classic_codec tt eq_refl)|]. split; [done|]. split; [done|]. split; [done|].
    split; [done|]. split; [done|]. split; [done|]. split; [done|]. split; [done|]. split; [done|]. split; [done|]. split.
    - split; [apply Hgood|]. split; [done|]. split; [done|]. intros j k Hj Hk. split; reflexivity.
    - intros N HN. split; [done|]. split; [done|]. split; [done|]. split; [done|]. intros r c Hr Hc. apply HN; congruence.
  Qed.

  (** ** The bitwise algorithm *)
  Lemma bw_HLaws w N : (w = 8 \/ w = 16 \/ w = 32) -> 2 <= N <= 2 ^ (w - 1) ->
    exists E1n E1p E2, laws (R := R) (Algo.bitwise R) irng_ok (bw_view R) True True w N (bw_full R w N) E1n E1p E2.
  Proof. intros Hw HN. eexists _, _, _. by apply (bitwise_laws R irng_ok frng_ok HR). Qed.
  Lemma bw_HInv w N n nf m q : bw_full R w N n nf m q -> nm_good m /\ nm_w m = w /\ nm_rows m = (2 * n)%nat /\ nm_cols m = nf /\
    forall r c, (r < 2 * n)%nat -> (c < nf)%nat -> - N <= nm_cell m r c <= N - 1.
  Proof.
    intros [((Hg & _) & Ew & Er & Ec & _) Hcell]. split; [exact Hg|]. split; [done|]. split; [done|]. split; [done|].
    intros r c Hr Hc. exact (proj1 (Hcell r c Hr Hc)).
  Qed.
  Lemma bw_Hread n nf weighted maxw doc : (0 < n)%nat -> Z.of_nat (2 * n) <= 2 * int_max -> 1 <= maxw <= int_max ->
    sound_state (Z.of_nat (2 * n)) (Z.of_nat nf) weighted maxw doc -> matching_polarity (Z.of_nat (2 * n)) (Z.of_nat nf) doc ->
    exists jt w m q rows ws, member doc "ta_state"%string = Some jt /\ ta_from_json bitwise_codec jt = Ret (TA m ws q) /\ (w = 8 \/ w = 16 \/ w = 32) /\
      rows_of doc = Some rows /\ weights_of doc = Some ws /\ nm_good m /\ nm_w m = w /\ nm_rows m = (2 * n)%nat /\ nm_cols m = nf /\
      map (nm_row m) (seq 0 (nm_rows m)) = rows /\ weights_ok weighted maxw n ws /\ bytes_of doc = Some (w / 8) /\
      by_sign (Algo.bitwise R) (bw_view R) n nf m q /\
      forall N, (forall r c, (r < nm_rows m)%nat -> (c < nm_cols m)%nat -> - N <= nm_cell m r c <= N - 1) -> bw_full R w N n nf m q.
  Proof.
    intros Hn Hn2 Hmax Hs Hpol. destruct (ta_read n nf weighted maxw doc Hn Hmax Hs)
      as (jt & w & m & rows & ws & Et & Eta & Hw & Erows & Ews & Hgood & Fw & Fr & Fc & Frows & Hws & Hby).
    assert (Z.of_nat nf <= int_max) as Hnf by (rewrite <- Fc; apply alloc_cols; [apply Hgood|lia]).
    destruct (polarity_read n nf doc m rows jt Hn Hn2 Hnf Fr Fc Erows Frows Et Hpol) as (q & Eq & Hwf & Qr & Qc & Qb & Qp & Qs).
    exists jt, w, m, q, rows, ws. split; [done|]. split; [exact (Eta bmatrix bitwise_codec q Eq)|]. split; [done|]. split; [done|]. split; [done|].
    split; [done|]. split; [done|]. split; [done|]. split; [done|]. split; [done|]. split; [done|]. split; [done|]. split.
    - split; [apply Hgood|]. split; [done|]. split; [done|]. intros j k Hj Hk. split.
      + change (v_inc (bw_view R) m q j k) with (bm_bit 64 q (2 * j) k). apply Qs; lia.
      + change (v_incn (bw_view R) m q j k) with (bm_bit 64 q (2 * j + 1) k). apply Qs; lia.
    - intros N HN. split.
      + split; [|done]. split; [exact Hgood|]. split; [exact Hwf|]. cbn [fst snd]. split; congruence.
      + intros r c Hr Hc. split; cbn [fst snd jv]; [apply HN; congruence|]. by apply Qs.
  Qed.

  Lemma cl_phys more : Forall (clf_op_phys (classic R) (cl_view R)) more.
  Proof. apply list.Forall_true. intros []; cbn; try done; by apply list.Forall_true. Qed.
  Lemma cl_phys_reg more : Forall (reg_op_phys (classic R) (cl_view R)) more.
  Proof. apply list.Forall_true. intros []; cbn; try done; by apply list.Forall_true. Qed.
End Inst.

Lemma classic_clf_edited : forall sh l fuel b1 b2, shuffle_ok sh -> forall S1 S2, sch_ok S1 -> sch_ok S2 ->
  forall a p os rs e L nf t doc t' doc', clf_created a p -> clf_made_text p -> finite_C1 p ->
  clf_history S1 (classic (mt_rnd sh l fuel b1 b2)) (cl_view _) p os rs e -> clf_dims_of os rs = Some (L, nf) ->
  clf_to_json_string classic_codec S1 e = Ret t -> json_text t doc -> json_text t' doc' -> same_rest doc doc' ->
  sound_state (Z.of_nat L * ca_clauses a) (Z.of_nat nf) (ca_weighted a) (ca_max_weight a) doc' ->
  forall e0, exists e' m, clf_from_json_string classic_codec S2 e0 t' = Ret e' /\ read_classifier doc' = Some m /\
    e_params e' = e_params e /\
    (exists again, clf_to_json classic_codec S2 e' = Ret again /\ rows_of (reparse again) = rows_of doc' /\ weights_of (reparse again) = weights_of doc') /\
    (forall x, v_ok (cl_view (mt_rnd sh l fuel b1 b2)) nf x -> exists e1 e2 w,
      clf_decision1 S2 (classic (mt_rnd sh l fuel b1 b2)) e' x = Ret (Right (document_votes m (v_x (cl_view (mt_rnd sh l fuel b1 b2)) x)), e1) /\
      clf_predict1 S2 (classic (mt_rnd sh l fuel b1 b2)) e' x = Ret (Right (Z.of_nat w), e2) /\ wins m (v_x (cl_view (mt_rnd sh l fuel b1 b2)) x) w) /\
    (bytes_of doc' = bytes_of doc -> (forall rows, rows_of doc' = Some rows -> Forall (Forall (fun z => - ca_states a <= z < ca_states a)) rows) ->
      forall more rs' e'', clf_run S2 (classic (mt_rnd sh l fuel b1 b2)) e' more = Ret (rs', e'') ->
      exists L' nf' again rows ws, clf_to_json classic_codec S2 e'' = Ret again /\ rows_of (reparse again) = Some rows /\ weights_of (reparse again) = Some ws /\
        Z.of_nat (length rows) = Z.of_nat L' * ca_clauses a /\ Forall (fun row => length row = nf') rows /\
        Forall (Forall (fun z => - ca_states a <= z < ca_states a)) rows /\
        if ca_weighted a then 2 * Z.of_nat (length ws) = Z.of_nat L' * ca_clauses a /\ Forall (fun v => 0 <= v < ca_max_weight a) ws else ws = []).
Proof.
  intros sh l fuel b1 b2 Hsh S1 S2 HS1 HS2 a p os rs e L nf t doc t' doc' Hc Hm Hf Hh Hd Et Ht Ht' Hr Hs e0.
  assert (1 <= ca_states a) as HN by (destruct Hc as [[[] [] _] _ _]; unfold is_int in *; lia).
  destruct (clf_document_edited sh l fuel b1 b2 Hsh (classic (mt_rnd sh l fuel b1 b2)) (cl_view _) classic_codec (codec_classic _) 1 ltac:(lia)
    (cl_inv (mt_rnd sh l fuel b1 b2)) (fun _ _ _ => True) (cl_HLaws sh l fuel b1 b2 Hsh) (cl_HInv sh l fuel b1 b2) (cl_Hread sh l fuel b1 b2)
    S1 S2 HS1 HS2 a p os rs e L nf t doc t' doc' (tw_classic _ _) HN Hc Hm Hf Hh Hd Et Ht Ht' Hr Hs Logic.I e0)
    as (e' & m & El & Em & Ep & Hag & Hans & Hmore).
  exists e', m. split; [exact El|]. split; [exact Em|]. split; [exact Ep|]. split; [exact Hag|]. split.
  - intros x Hx. exact (Hans x Logic.I Hx).
  - intros Hb Hrng more rs' e'' Hrun. exact (Hmore Hb Hrng more rs' e'' (cl_phys sh l fuel b1 b2 more) Hrun).
Qed.
Lemma classic_reg_edited : forall sh l fuel b1 b2, shuffle_ok sh -> forall S1 S2, sch_ok S1 -> sch_ok S2 ->
  forall a p os rs e nf t doc t' doc', reg_created a p -> reg_made_text p -> finite_C1 p ->
  reg_history S1 (classic (mt_rnd sh l fuel b1 b2)) (cl_view _) p os rs e -> reg_dims_of os rs = Some nf ->
  reg_to_json_string classic_codec S1 e = Ret t -> json_text t doc -> json_text t' doc' -> same_rest doc doc' ->
  sound_state (ra_clauses a) (Z.of_nat nf) (ra_weighted a) (ra_max_weight a) doc' ->
  forall e0, exists e' m, reg_from_json_string classic_codec S2 e0 t' = Ret e' /\ read_regressor doc' = Some m /\
    e_params e' = e_params e /\
    (exists again, reg_to_json classic_codec S2 e' = Ret again /\ rows_of (reparse again) = rows_of doc' /\ weights_of (reparse again) = weights_of doc') /\
    (forall x, v_ok (cl_view (mt_rnd sh l fuel b1 b2)) nf x -> exists e1,
      reg_predict1 S2 (classic (mt_rnd sh l fuel b1 b2)) e' x = Ret (Right (document_response m (v_x (cl_view (mt_rnd sh l fuel b1 b2)) x)), e1)) /\
    (bytes_of doc' = bytes_of doc -> (forall rows, rows_of doc' = Some rows -> Forall (Forall (fun z => - ra_states a <= z < ra_states a)) rows) ->
      forall more rs' e'', reg_run S2 (classic (mt_rnd sh l fuel b1 b2)) e' more = Ret (rs', e'') ->
      exists nf' again rows ws, reg_to_json classic_codec S2 e'' = Ret again /\ rows_of (reparse again) = Some rows /\ weights_of (reparse again) = Some ws /\
        Z.of_nat (length rows) = ra_clauses a /\ Forall (fun row => length row = nf') rows /\
        Forall (Forall (fun z => - ra_states a <= z < ra_states a)) rows /\
        if ra_weighted a then 2 * Z.of_nat (length ws) = ra_clauses a /\ Forall (fun v => 0 <= v < ra_max_weight a) ws else ws = []).
Proof.
  intros sh l fuel b1 b2 Hsh S1 S2 HS1 HS2 a p os rs e nf t doc t' doc' Hc Hm Hf Hh Hd Et Ht Ht' Hr Hs e0.
  assert (1 <= ra_states a) as HN by (destruct Hc as [[[] [] _] _]; unfold is_int in *; lia).
  destruct (reg_document_edited sh l fuel b1 b2 Hsh (classic (mt_rnd sh l fuel b1 b2)) (cl_view _) classic_codec (codec_classic _) 1 ltac:(lia)
    (cl_inv (mt_rnd sh l fuel b1 b2)) (fun _ _ _ => True) (cl_HLaws sh l fuel b1 b2 Hsh) (cl_HInv sh l fuel b1 b2) (cl_Hread sh l fuel b1 b2)
    S1 S2 HS1 HS2 a p os rs e nf t doc t' doc' (tw_classic _ _) HN Hc Hm Hf Hh Hd Et Ht Ht' Hr Hs Logic.I e0)
    as (e' & m & El & Em & Ep & Hag & Hans & Hmore).
  exists e', m. split; [exact El|]. split; [exact Em|]. split; [exact Ep|]. split; [exact Hag|]. split.
  - intros x Hx. exact (Hans x Logic.I Hx).
  - intros Hb Hrng more rs' e'' Hrun. exact (Hmore Hb Hrng more rs' e'' (cl_phys_reg sh l fuel b1 b2 more) Hrun).
Qed.
Lemma bitwise_clf_edited : forall sh l fuel b1 b2, shuffle_ok sh -> forall S1 S2, sch_ok S1 -> sch_ok S2 ->
  forall a p os rs e L nf t doc t' doc', clf_created a p -> 2 <= ca_states a -> clf_made_text p -> finite_C1 p ->
  clf_history S1 (Algo.bitwise (mt_rnd sh l fuel b1 b2)) (bw_view _) p os rs e -> clf_dims_of os rs = Some (L, nf) ->
  clf_to_json_string bitwise_codec S1 e = Ret t -> json_text t doc -> json_text t' doc' -> same_rest doc doc' ->
  sound_state (Z.of_nat L * ca_clauses a) (Z.of_nat nf) (ca_weighted a) (ca_max_weight a) doc' ->
  matching_polarity (Z.of_nat L * ca_clauses a) (Z.of_nat nf) doc' ->
  forall e0, exists e' m, clf_from_json_string bitwise_codec S2 e0 t' = Ret e' /\ read_classifier doc' = Some m /\
    e_params e' = e_params e /\
    (exists again, clf_to_json bitwise_codec S2 e' = Ret again /\ rows_of (reparse again) = rows_of doc' /\ weights_of (reparse again) = weights_of doc') /\
    (forall x, bits_phys x -> bits_ok nf x -> exists e1 e2 w,
      clf_decision1 S2 (Algo.bitwise (mt_rnd sh l fuel b1 b2)) e' x = Ret (Right (document_votes m (bv_bit 64 x)), e1) /\
      clf_predict1 S2 (Algo.bitwise (mt_rnd sh l fuel b1 b2)) e' x = Ret (Right (Z.of_nat w), e2) /\ wins m (bv_bit 64 x) w) /\
    (bytes_of doc' = bytes_of doc -> (forall rows, rows_of doc' = Some rows -> Forall (Forall (fun z => - ca_states a <= z < ca_states a)) rows) ->
      forall more rs' e'', Forall (clf_op_phys (Algo.bitwise (mt_rnd sh l fuel b1 b2)) (bw_view _)) more -> clf_run S2 (Algo.bitwise (mt_rnd sh l fuel b1 b2)) e' more = Ret (rs', e'') ->
      exists L' nf' again rows ws, clf_to_json bitwise_codec S2 e'' = Ret again /\ rows_of (reparse again) = Some rows /\ weights_of (reparse again) = Some ws /\
        Z.of_nat (length rows) = Z.of_nat L' * ca_clauses a /\ Forall (fun row => length row = nf') rows /\
        Forall (Forall (fun z => - ca_states a <= z < ca_states a)) rows /\
        if ca_weighted a then 2 * Z.of_nat (length ws) = Z.of_nat L' * ca_clauses a /\ Forall (fun v => 0 <= v < ca_max_weight a) ws else ws = []).
Proof.
  intros sh l fuel b1 b2 Hsh S1 S2 HS1 HS2 a p os rs e L nf t doc t' doc' Hc HN Hm Hf Hh Hd Et Ht Ht' Hr Hs Hpol e0.
  exact (clf_document_edited sh l fuel b1 b2 Hsh (Algo.bitwise (mt_rnd sh l fuel b1 b2)) (bw_view _) bitwise_codec (codec_bitwise _) 2 ltac:(lia)
    (bw_full (mt_rnd sh l fuel b1 b2)) matching_polarity (bw_HLaws sh l fuel b1 b2 Hsh) (bw_HInv sh l fuel b1 b2) (bw_Hread sh l fuel b1 b2)
    S1 S2 HS1 HS2 a p os rs e L nf t doc t' doc' (tw_bitwise _ _ HN) HN Hc Hm Hf Hh Hd Et Ht Ht' Hr Hs Hpol e0).
Qed.
Lemma bitwise_reg_edited : forall sh l fuel b1 b2, shuffle_ok sh -> forall S1 S2, sch_ok S1 -> sch_ok S2 ->
  forall a p os rs e nf t doc t' doc', reg_created a p -> 2 <= ra_states a -> reg_made_text p -> finite_C1 p ->
  reg_history S1 (Algo.bitwise (mt_rnd sh l fuel b1 b2)) (bw_view _) p os rs e -> reg_dims_of os rs = Some nf ->
  reg_to_json_string bitwise_codec S1 e = Ret t -> json_text t doc -> json_text t' doc' -> same_rest doc doc' ->
  sound_state (ra_clauses a) (Z.of_nat nf) (ra_weighted a) (ra_max_weight a) doc' ->
  matching_polarity (ra_clauses a) (Z.of_nat nf) doc' ->
  forall e0, exists e' m, reg_from_json_string bitwise_codec S2 e0 t' = Ret e' /\ read_regressor doc' = Some m /\
    e_params e' = e_params e /\
    (exists again, reg_to_json bitwise_codec S2 e' = Ret again /\ rows_of (reparse again) = rows_of doc' /\ weights_of (reparse again) = weights_of doc') /\
    (forall x, bits_phys x -> bits_ok nf x -> exists e1,
      reg_predict1 S2 (Algo.bitwise (mt_rnd sh l fuel b1 b2)) e' x = Ret (Right (document_response m (bv_bit 64 x)), e1)) /\
    (bytes_of doc' = bytes_of doc -> (forall rows, rows_of doc' = Some rows -> Forall (Forall (fun z => - ra_states a <= z < ra_states a)) rows) ->
      forall more rs' e'', Forall (reg_op_phys (Algo.bitwise (mt_rnd sh l fuel b1 b2)) (bw_view _)) more -> reg_run S2 (Algo.bitwise (mt_rnd sh l fuel b1 b2)) e' more = Ret (rs', e'') ->
      exists nf' again rows ws, reg_to_json bitwise_codec S2 e'' = Ret again /\ rows_of (reparse again) = Some rows /\ weights_of (reparse again) = Some ws /\
        Z.of_nat (length rows) = ra_clauses a /\ Forall (fun row => length row = nf') rows /\
        Forall (Forall (fun z => - ra_states a <= z < ra_states a)) rows /\
        if ra_weighted a then 2 * Z.of_nat (length ws) = ra_clauses a /\ Forall (fun v => 0 <= v < ra_max_weight a) ws else ws = []).
Proof.
  intros sh l fuel b1 b2 Hsh S1 S2 HS1 HS2 a p os rs e nf t doc t' doc' Hc HN Hm Hf Hh Hd Et Ht Ht' Hr Hs Hpol e0.
  exact (reg_document_edited sh l fuel b1 b2 Hsh (Algo.bitwise (mt_rnd sh l fuel b1 b2)) (bw_view _) bitwise_codec (codec_bitwise _) 2 ltac:(lia)
    (bw_full (mt_rnd sh l fuel b1 b2)) matching_polarity (bw_HLaws sh l fuel b1 b2 Hsh) (bw_HInv sh l fuel b1 b2) (bw_Hread sh l fuel b1 b2)
    S1 S2 HS1 HS2 a p os rs e nf t doc t' doc' (tw_bitwise _ _ HN) HN Hc Hm Hf Hh Hd Et Ht Ht' Hr Hs Hpol e0).
Qed.
