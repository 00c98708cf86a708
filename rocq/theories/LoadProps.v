(** * Loads that fail: what the estimator answers afterwards. *)
From Verif Require Import FloatFacts.
From Verif Require Export LoadFacts.
From stdpp Require Import list.
Local Open Scope Z_scope.

(** ** Clauses past the end of the matrices *)
Lemma vget_past {A} (l : list A) i : (length l <= i)%nat -> vget l i = UB OutOfBounds.
Proof. intros H. unfold vget. by rewrite lookup_ge_None_2. Qed.
Section Absent.
  Context (R : rnd).
  Lemma cl_absent w N n nf m p x j B : cl_inv R w N n nf m p -> dense_ok nf x -> (n <= j)%nat -> (0 < nf)%nat -> (0 < B)%nat ->
    clp_clause B x m j = UB OutOfBounds.
  Proof.
    intros (Hg & _ & Hr & _) [Hx _] Hj Hn HB.
    assert (forall k, cl_actions m j k = UB OutOfBounds) as Ha.
    { intros k. unfold cl_actions, nm_get. rewrite vget_past; [done|]. destruct Hg as [[[_ Hl] _] _]. rewrite Hl, Hr. unfold nm_offset. nia. }
    unfold clp_clause. rewrite Hx. case_decide as Hd.
    - destruct nf as [|nf]; [lia|]. cbn [clp_short]. by rewrite Ha.
    - cbn [clp_tiles]. rewrite Hx, decide_True by lia. destruct B as [|B]; [lia|]. unfold ofor. cbn [seq ofold]. by rewrite Ha.
  Qed.
  Lemma bw_absent w n nf m p x j B : bw_struct R w n nf m p -> bits_ok nf x -> (n <= j)%nat -> (0 < nf)%nat -> (0 < B)%nat ->
    bwp_clause B x p j = UB OutOfBounds.
  Proof.
    intros (Hg & _ & Hr & _) (Hx & _) Hj Hn HB. destruct Hg as (_ & (_ & Hl & _) & Er & _). cbn [fst snd] in *.
    assert (forall k, bw_eval x p j k = UB OutOfBounds) as Ha.
    { intros k. unfold bw_eval, bm_block. rewrite vget_past; [done|]. rewrite Hl, Er, Hr. nia. }
    assert (0 < bv_content_blocks 64 x)%nat as Hb. { unfold bv_content_blocks, blocks_for. rewrite Hx. apply Nat.div_str_pos. lia. }
    unfold bwp_clause. case_decide as Hd.
    - destruct (bv_content_blocks 64 x) as [|nb]; [lia|]. cbn [bwp_short]. by rewrite Ha.
    - cbn [bwp_tiles]. rewrite decide_True by lia. destruct B as [|B]; [lia|]. unfold ofor. cbn [seq ofold]. by rewrite Ha.
  Qed.
End Absent.

(** a loop over clauses one of which is not there is undefined *)
Lemma loop_past clause co order : Forall (fun j => (exists v, clause j = Ret v) \/ clause j = UB OutOfBounds) order ->
  Forall (fun j => (j < length co)%nat) order -> Exists (fun j => clause j = UB OutOfBounds) order -> clause_loop clause co order = UB OutOfBounds.
Proof.
  unfold clause_loop. revert co. induction order as [|j l IH]; intros co H1 H2 H3; [by apply Exists_nil in H3|].
  apply Forall_cons in H1 as [H1 H1']. apply Forall_cons in H2 as [H2 H2']. cbn [ofold]. destruct H1 as [[v E]|E]; rewrite E; [|done]. cbn [obind].
  unfold vset. rewrite decide_True by exact H2. cbn [obind]. apply IH; [done|by rewrite insert_length|]. apply Exists_cons in H3 as [H3|H3]; [|done]. congruence.
Qed.

Section Mixed.
  Context (sh : irng -> nat -> list nat * irng) (l : bool) (fuel : nat) (b1 b2 : Z -> float32) (Hsh : shuffle_ok sh).
  Let R := mt_rnd sh l fuel b1 b2.
  Let HR : rnd_ok R irng_ok frng_ok := mt_rnd_ok sh l fuel b1 b2 Hsh.
  Context (A : algo R) (vw : aview A) (C : pol_codec (a_pol A)) (HC : tsetlini_codec R A vw C).
  Notation estS S := (est (a_pol A) (eS S) (eG R) (eF R)).

  Lemma codec_absent w N : (w = 8 \/ w = 16 \/ w = 32) -> 1 <= N <= 2 ^ (w - 1) ->
    exists I E1n E1p E2, (forall U V, laws (R := R) A irng_ok vw U V w N I E1n E1p E2) /\
      (forall n nf m p ws, I n nf m p -> (0 < n)%nat -> Z.of_nat (2 * n) <= int_max -> Forall (fun w => 0 <= w < 4294967296) ws ->
        ta_restored C (TA m ws p)) /\
      (forall n nf m p ws x j B, I n nf m p -> v_ok vw nf x -> (n <= j)%nat -> (0 < nf)%nat -> (0 < B)%nat -> a_clause_pruned A B x (TA m ws p) j = UB OutOfBounds).
  Proof using HC Hsh.
    intros Hw HN. destruct HC.
    - exists (cl_inv R w N), (cl_E1n R N), (cl_E1p R N), (cl_E2 R). split; [|split].
      + intros U V. by apply (classic_laws R irng_ok frng_ok HR).
      + intros n nf m p ws HI Hn _ Hws. by eapply classic_restored.
      + intros n nf m p ws x j B HI Hx Hj Hn HB. by eapply (cl_absent R).
    - exists (bw_struct R w), (bw_E1n R N), (bw_E1p R N), (bw_E2_any R). split; [|split].
      + intros U V. by apply (bitwise_laws_struct R irng_ok frng_ok HR).
      + intros n nf m p ws HI Hn Hn2 Hws. by eapply bitwise_restored.
      + intros n nf m p ws x j B HI Hx Hj Hn HB. by eapply (bw_absent R).
  Qed.

  (** a document with the model and the generators of an estimator *)
  Definition model_of (j js : json) : Prop := forall k, k ∈ ["igen"; "fgen"; "ta_state"]%string -> j_at js k = j_at (reparse j) k.

  Lemma saved_members S1 kind (e : est (a_pol A) (eS S1) irng frng) : ta_restored C (e_ta e) -> irng_ok (e_igen e) -> frng_ok (e_fgen e) ->
    exists j, to_json C S1 kind e = Ret j /\ forall js, model_of j js -> read_igen js = Ret (e_igen e) /\ read_fgen js = Ret (e_fgen e) /\ read_ta C js = Ret (e_ta e).
  Proof using.
    intros (jt & Et & Eb) Hg Hf. unfold to_json. rewrite Et. cbn [obind]. eexists. split; [reflexivity|]. intros js Hm.
    unfold read_igen, read_fgen, read_ta. rewrite !Hm by (rewrite !elem_of_cons; tauto).
    rewrite (at_reparse _ _ (irng_to_json (e_igen e))) by reflexivity. cbn [obind]. rewrite irng_back by exact Hg.
    rewrite (at_reparse _ _ (frng_to_json (e_fgen e))) by reflexivity. cbn [obind]. rewrite frng_back by exact Hf.
    rewrite (at_reparse _ _ jt) by reflexivity. cbn [obind]. rewrite Eb. done.
  Qed.

  (** everything about a fitted classifier that is needed here *)
  Lemma clf_fitted_facts S a p os rs (e : estS S) L nf : sch_ok S -> clf_created a p -> clf_history S A vw p os rs e -> clf_dims_of os rs = Some (L, nf) ->
    exists I E1n E1p E2, (forall U V, laws (R := R) A irng_ok vw U V (width_of (ca_counting a) (ca_states a)) (ca_states a) I E1n E1p E2) /\
      (forall n nf m p ws x j B, I n nf m p -> v_ok vw nf x -> (n <= j)%nat -> (0 < nf)%nat -> (0 < B)%nat -> a_clause_pruned A B x (TA m ws p) j = UB OutOfBounds) /\
      clf_fitted (R := R) irng_ok frng_ok S A True True I a L nf e /\ e_params e = clf_fit_params L nf p /\ ta_restored C (e_ta e).
  Proof using HC Hsh.
    intros HS Hc Hh Hd. destruct (wide_enough (ca_counting a) (ca_states a)) as [W1 W2].
    { destruct (cc_valid _ _ Hc) as [_ [] _]. done. } { destruct (cc_valid _ _ Hc) as [[] [] _]. unfold is_int in *. lia. }
    destruct (codec_absent _ _ W1 W2) as (I & E1n & E1p & E2 & Lw & Hback & Habs). exists I, E1n, E1p, E2. split; [exact Lw|]. split; [exact Habs|].
    pose proof (clf_history_at (R := R) irng_ok frng_ok HR S HS A vw _ _ I E1n E1p E2 Lw a p os rs e Hc eq_refl eq_refl Hh) as At.
    rewrite Hd in At. destruct At as [Hfit Ep]. split; [exact Hfit|]. split; [exact Ep|]. destruct Hfit as (Ha & Hdim & Hcore).
    destruct (clf_n_bound a L nf Ha _ Hdim) as [Hn Hn0]. destruct (clf_opl_facts a Ha) as (Ecl & _).
    assert (Z.of_nat (2 * (L * clf_opl a)) <= int_max) as Hn2 by (pose proof (cd_n _ _ _ _ Hdim); nia).
    destruct Hcore as [Hauto Hws _ _ _ _ _]. cbn [fst snd] in *. pose proof (Hback _ _ _ _ (ta_weights (e_ta e)) Hauto Hn0 Hn2) as Hta.
    assert (Forall (fun w => 0 <= w < 4294967296) (ta_weights (e_ta e))) as Hw.
    { eapply weights_words; [exact Hws|]. destruct Ha as [[] _ _]. unfold is_int in *. lia. }
    specialize (Hta Hw). destruct e as [? [? ? ?] ? ? ?]. exact Hta.
  Qed.
  Lemma reg_fitted_facts S a p os rs (e : estS S) nf : sch_ok S -> reg_created a p -> reg_history S A vw p os rs e -> reg_dims_of os rs = Some nf ->
    exists I E1n E1p E2, (forall U V, laws (R := R) A irng_ok vw U V (width_of (ra_counting a) (ra_states a)) (ra_states a) I E1n E1p E2) /\
      (forall n nf m p ws x j B, I n nf m p -> v_ok vw nf x -> (n <= j)%nat -> (0 < nf)%nat -> (0 < B)%nat -> a_clause_pruned A B x (TA m ws p) j = UB OutOfBounds) /\
      reg_fitted (R := R) irng_ok S A True True I a nf e /\ e_params e = reg_fit_params nf p /\ ta_restored C (e_ta e) /\ frng_ok (e_fgen e).
  Proof using HC Hsh.
    intros HS Hc Hh Hd. destruct (wide_enough (ra_counting a) (ra_states a)) as [W1 W2].
    { destruct (rc_valid _ _ Hc) as [_ [] _]. done. } { destruct (rc_valid _ _ Hc) as [[] [] _]. unfold is_int in *. lia. }
    destruct (codec_absent _ _ W1 W2) as (I & E1n & E1p & E2 & Lw & Hback & Habs). exists I, E1n, E1p, E2. split; [exact Lw|]. split; [exact Habs|].
    pose proof (reg_history_at (R := R) irng_ok frng_ok HR S HS A vw _ _ I E1n E1p E2 Lw a p os rs e Hc eq_refl eq_refl Hh) as At.
    rewrite Hd in At. destruct At as [Hfit Ep]. split; [exact Hfit|]. split; [exact Ep|].
    split; [|exact (reg_history_fgen (R := R) irng_ok frng_ok HR S A vw p os rs e Hh)]. destruct Hfit as (Ha & Hdim & Hcore).
    destruct (reg_n_facts a Ha) as (Ecl & _ & Hn0).
    assert (Z.of_nat (2 * reg_n a) <= int_max) as Hn2. { destruct Ha as [[] _ _]. unfold is_int in *. lia. }
    destruct Hcore as [Hauto Hws _ _ _ _]. cbn [fst snd] in *. pose proof (Hback _ _ _ _ (ta_weights (e_ta e)) Hauto ltac:(lia) Hn2) as Hta.
    assert (Forall (fun w => 0 <= w < 4294967296) (ta_weights (e_ta e))) as Hw.
    { eapply weights_words; [exact Hws|]. destruct Ha as [[] _ _]. unfold is_int in *. lia. }
    specialize (Hta Hw). destruct e as [? [? ? ?] ? ? ?]. exact Hta.
  Qed.

  (** the model of a fitted classifier [e2], loaded without usable parameters into [e1] *)
  Theorem clf_mixed S1 S2 a2 p2 os2 rs2 (e1 : estS S1) (e2 : estS S2) L2 nf2 : sch_ok S2 ->
    clf_created a2 p2 -> clf_history S2 A vw p2 os2 rs2 e2 -> clf_dims_of os2 rs2 = Some (L2, nf2) ->
    exists j, clf_to_json C S2 e2 = Ret j /\ forall js x, model_of j js -> read_params_t js = Throw x ->
      clf_load C S1 e1 js = Ret (Some x, Est (e_params e1) (e_ta e2) (e_cache e1) (e_igen e2) (e_fgen e2)).
  Proof using HC Hsh.
    intros HS2 Hc Hh Hd. destruct (clf_fitted_facts S2 a2 p2 os2 rs2 e2 L2 nf2 HS2 Hc Hh Hd) as (I & E1n & E1p & E2 & _ & _ & (_ & _ & Hcore) & _ & Hta).
    destruct Hcore as [_ _ _ _ _ Hg Hf]. cbn [fst snd] in Hg, Hf. destruct (saved_members S2 "classifier" e2 Hta Hg Hf) as (j & Ej & Hj).
    exists j. split; [exact Ej|]. intros js x Hm Hp. destruct (Hj js Hm) as (R1 & R2 & R3).
    exact (eq_trans (load_no_params C S1 (clf_reset_steps S1) e1 js _ _ _ x R1 R2 R3 Hp) (f_equal2 (fun g f => Ret (Some x, Est (e_params e1) (e_ta e2) (e_cache e1) g f))
      (assign_id _ _ (proj1 Hg)) (assign_id _ _ (proj1 Hf)))).
  Qed.
  Theorem reg_mixed S1 S2 a2 p2 os2 rs2 (e1 : estS S1) (e2 : estS S2) nf2 : sch_ok S2 ->
    reg_created a2 p2 -> reg_history S2 A vw p2 os2 rs2 e2 -> reg_dims_of os2 rs2 = Some nf2 ->
    exists j, reg_to_json C S2 e2 = Ret j /\ forall js x, model_of j js -> read_params_t js = Throw x ->
      reg_load C S1 e1 js = Ret (Some x, Est (e_params e1) (e_ta e2) (e_cache e1) (e_igen e2) (e_fgen e2)).
  Proof using HC Hsh.
    intros HS2 Hc Hh Hd. destruct (reg_fitted_facts S2 a2 p2 os2 rs2 e2 nf2 HS2 Hc Hh Hd) as (I & E1n & E1p & E2 & _ & _ & (_ & _ & Hcore) & _ & Hta & Hf).
    destruct Hcore as [_ _ _ _ _ Hg]. cbn [fst snd] in Hg. destruct (saved_members S2 "regressor" e2 Hta Hg Hf) as (j & Ej & Hj).
    exists j. split; [exact Ej|]. intros js x Hm Hp. destruct (Hj js Hm) as (R1 & R2 & R3).
    exact (eq_trans (load_no_params C S1 (reg_reset_steps S1) e1 js _ _ _ x R1 R2 R3 Hp) (f_equal2 (fun g f => Ret (Some x, Est (e_params e1) (e_ta e2) (e_cache e1) g f))
      (assign_id _ _ (proj1 Hg)) (assign_id _ _ (proj1 Hf)))).
  Qed.

  (** computing the outputs of more clauses than there are *)
  Lemma calc_past S w N I E1n E1p E2 U V n n1 nf x (c : cache (eS S)) (s : tastate (a_pol A)) nj tile : sch_ok S ->
    laws (R := R) A irng_ok vw U V w N I E1n E1p E2 ->
    (forall n nf m p ws x j B, I n nf m p -> v_ok vw nf x -> (n <= j)%nat -> (0 < nf)%nat -> (0 < B)%nat -> a_clause_pruned A B x (TA m ws p) j = UB OutOfBounds) ->
    I n nf (ta_matrix s) (ta_pol s) -> v_ok vw nf x -> (0 < nf)%nat -> tile_known tile -> length (ca_out c) = n1 -> (n < n1)%nat ->
    calc_clause_output_pruned S A x c (Z.of_nat n1) s nj tile = UB OutOfBounds.
  Proof using.
    intros HS Lw Habs HI Hx Hnf Ht Hl Hn. unfold calc_clause_output_pruned. rewrite Nat2Z.id. pose proof (HS (ca_sched c) nj 0%nat n1) as Hp.
    destruct (sched S (ca_sched c) nj 0 n1) as [order ss]. cbn [fst] in Hp. rewrite Nat.sub_0_r in Hp.
    assert (forall j, j ∈ order <-> (j < n1)%nat) as Hin by (intros j; rewrite Hp, elem_of_seq; lia).
    rewrite loop_past; [done|..].
    - rewrite list.Forall_forall. intros j _. destruct s as [m ws p]. destruct (decide (j < n)%nat) as [Hj|Hj].
      + left. eexists. eapply (l_pruned _ _ _ _ _ _ _ _ _ _ _ Lw n); [exact HI|exact Hx|exact Hj|by apply tile_of_pos].
      + right. eapply Habs; [exact HI|exact Hx|lia|exact Hnf|by apply tile_of_pos].
    - rewrite list.Forall_forall. intros j Hj%Hin. lia.
    - rewrite list.Exists_exists. exists n. split; [by apply Hin|]. destruct s as [m ws p]. eapply Habs; [exact HI|exact Hx|lia|exact Hnf|by apply tile_of_pos].
  Qed.

  Theorem clf_mixed_predict S1 S2 a1 p1 os1 rs1 (e1 : estS S1) L1 a2 p2 os2 rs2 (e2 : estS S2) L2 nf x : sch_ok S1 -> sch_ok S2 ->
    clf_created a1 p1 -> clf_history S1 A vw p1 os1 rs1 e1 -> clf_dims_of os1 rs1 = Some (L1, nf) ->
    clf_created a2 p2 -> clf_history S2 A vw p2 os2 rs2 e2 -> clf_dims_of os2 rs2 = Some (L2, nf) ->
    (0 < nf)%nat -> Z.of_nat L2 * ca_clauses a2 < Z.of_nat L1 * ca_clauses a1 -> v_phys vw x -> v_ok vw nf x ->
    clf_predict1 (R := R) S1 A (Est (e_params e1) (e_ta e2) (e_cache e1) (e_igen e2) (e_fgen e2)) x = UB OutOfBounds.
  Proof using HC Hsh.
    intros HS1 HS2 Hc1 Hh1 Hd1 Hc2 Hh2 Hd2 Hnf Hlt Hph Hx.
    destruct (clf_fitted_facts S1 a1 p1 os1 rs1 e1 L1 nf HS1 Hc1 Hh1 Hd1) as (I1 & E1n1 & E1p1 & E21 & Lw1 & _ & (Ha1 & Hdim & Hcore1) & _ & _).
    destruct (clf_fitted_facts S2 a2 p2 os2 rs2 e2 L2 nf HS2 Hc2 Hh2 Hd2) as (I2 & E1n2 & E1p2 & E22 & Lw2 & Habs & (Ha2 & Hdim2 & Hcore2) & _ & _).
    destruct Hcore1 as [_ _ (_ & Hlen & _) _ _ _ _]. destruct Hcore2 as [Hauto _ _ _ _ _ _]. cbn [fst snd] in Hlen, Hauto.
    destruct (clf_n_bound a2 L2 nf Ha2 _ Hdim2) as [_ Hn0].
    set (e := Est (e_params e1) (e_ta e2) (e_cache e1) (e_igen e2) (e_fgen e2) : estS S1).
    assert (is_fitted A (e_ta e) = true) as Hfit by exact (rows_fitted (R := R) irng_ok A vw _ _ _ _ I2 _ _ _ (Lw2 True True) _ _ _ Hauto Hn0).
    pose proof (P_outputs a1 L1 nf Ha1 _ Hdim) as Po. pose proof (P_opl a1 Ha1 _ (cd_has _ _ _ _ Hdim)) as Pl.
    destruct (check_single_spec (R := R) irng_ok S1 A vw _ _ _ _ I1 _ _ _ (Lw1 True True) e nf x Hph Hfit (cd_features _ _ _ _ Hdim)) as [[_ E]|[Hno _]]; [|done].
    destruct (clf_opl_facts a1 Ha1) as (Q1 & _). destruct (clf_opl_facts a2 Ha2) as (Q2 & _).
    unfold clf_predict1. rewrite E. cbn [obind]. rewrite decide_False by naive_solver. destruct Hdim as [[] Hl _ _ _]. cbn [e e_params].
    rewrite ch_njobs, ch_tile, Po, Hl, Pl, ch_threshold. cbn [obind]. unfold label_votes.
    erewrite calc_past; [reflexivity|exact HS1|exact (Lw2 True True)|exact Habs|exact Hauto|exact Hx|exact Hnf| |exact Hlen|nia].
    by destruct Ha1 as [_ [] _].
  Qed.
  Theorem reg_mixed_predict S1 S2 a1 p1 os1 rs1 (e1 : estS S1) a2 p2 os2 rs2 (e2 : estS S2) nf x : sch_ok S1 -> sch_ok S2 ->
    reg_created a1 p1 -> reg_history S1 A vw p1 os1 rs1 e1 -> reg_dims_of os1 rs1 = Some nf ->
    reg_created a2 p2 -> reg_history S2 A vw p2 os2 rs2 e2 -> reg_dims_of os2 rs2 = Some nf ->
    (0 < nf)%nat -> ra_clauses a2 < ra_clauses a1 -> v_phys vw x -> v_ok vw nf x ->
    reg_predict1 (R := R) S1 A (Est (e_params e1) (e_ta e2) (e_cache e1) (e_igen e2) (e_fgen e2)) x = UB OutOfBounds.
  Proof using HC Hsh.
    intros HS1 HS2 Hc1 Hh1 Hd1 Hc2 Hh2 Hd2 Hnf Hlt Hph Hx.
    destruct (reg_fitted_facts S1 a1 p1 os1 rs1 e1 nf HS1 Hc1 Hh1 Hd1) as (I1 & E1n1 & E1p1 & E21 & Lw1 & _ & (Ha1 & Hdim & Hcore1) & _ & _).
    destruct (reg_fitted_facts S2 a2 p2 os2 rs2 e2 nf HS2 Hc2 Hh2 Hd2) as (I2 & E1n2 & E1p2 & E22 & Lw2 & Habs & (Ha2 & Hdim2 & Hcore2) & _ & _).
    destruct Hcore1 as [_ _ Hlen _ _ _]. destruct Hcore2 as [Hauto _ _ _ _ _]. cbn [fst snd] in Hlen, Hauto.
    destruct (reg_n_facts a1 Ha1) as (Q1 & _ & _). destruct (reg_n_facts a2 Ha2) as (Q2 & _ & Hn0).
    set (e := Est (e_params e1) (e_ta e2) (e_cache e1) (e_igen e2) (e_fgen e2) : estS S1).
    assert (is_fitted A (e_ta e) = true) as Hfit by exact (rows_fitted (R := R) irng_ok A vw _ _ _ _ I2 _ _ _ (Lw2 True True) _ _ _ Hauto Hn0).
    pose proof (P_reg_n a1 Ha1 _ (rd_has _ _ _ Hdim)) as Po.
    destruct (check_single_spec (R := R) irng_ok S1 A vw _ _ _ _ I1 _ _ _ (Lw1 True True) e nf x Hph Hfit (rd_features _ _ _ Hdim)) as [[_ E]|[Hno _]]; [|done].
    unfold reg_predict1. rewrite E. cbn [obind]. rewrite decide_False by naive_solver. destruct Hdim as [[] _]. cbn [e e_params].
    rewrite rh_njobs, rh_tile, Po, rh_threshold. cbn [obind].
    erewrite calc_past; [reflexivity|exact HS1|exact (Lw2 True True)|exact Habs|exact Hauto|exact Hx|exact Hnf| |exact (proj1 Hlen)|lia].
    by destruct Ha1 as [_ [] _].
  Qed.
End Mixed.

(** ** Documents that cannot be read *)
(** reading a document always ends *)
Definition ends {A} (o : outcome A) : Prop := o <> OutOfFuel.
Lemma ends_bind {A B} (o : outcome A) (k : A -> outcome B) : ends o -> (forall a, ends (k a)) -> ends (let* a := o in k a).
Proof. intros H1 H2. destruct o; cbn; done. Qed.
Lemma ends_omap {A B} (f : A -> outcome B) l : (forall a, ends (f a)) -> ends (Base.omap f l).
Proof. intros H. induction l; cbn; [done|]. apply ends_bind; [done|]. intros ?. by apply ends_bind. Qed.
Lemma ends_ofold {A B} (f : A -> B -> outcome B) l s : (forall a b, ends (f a b)) -> ends (ofold l s f).
Proof. intros H. revert s. induction l; intros s; cbn; [done|]. by apply ends_bind. Qed.
Lemma ends_at j k : ends (j_at j k).
Proof. unfold j_at. destruct j; try done. by case_match. Qed.
Lemma ends_trunc lo hi x : ends (trunc_in lo hi x).
Proof. destruct x; cbn; try done. by case_match. Qed.
Lemma ends_u32 j : ends (j_u32 j).
Proof. destruct j; cbn; try done. unfold to_u32. by repeat case_match. Qed.
Lemma ends_u64 j : ends (j_u64 j).
Proof. destruct j; cbn -[trunc_in]; try done. apply ends_trunc. Qed.
Lemma ends_sint w j : ends (j_sint w j).
Proof. destruct j; cbn -[trunc_in]; try done. apply ends_trunc. Qed.
Lemma ends_f32 j : ends (j_f32 j).
Proof. by destruct j. Qed.
Lemma ends_vec {A} (rd : json -> outcome A) j : (forall j, ends (rd j)) -> ends (j_vec rd j).
Proof. intros H. destruct j; cbn; try done. by apply ends_omap. Qed.
Lemma ends_copy {A} (a b : list A) : ends (copy_to a b).
Proof. unfold copy_to. by case_decide. Qed.
Lemma ends_vget {A} (a : list A) i : ends (vget a i).
Proof. unfold vget. by case_match. Qed.
Lemma ends_index j i : ends (j_index j i).
Proof. destruct j; cbn -[vget]; try done. apply ends_vget. Qed.
Lemma ends_mt {V} (z : V) rd j : (forall j, ends (rd j)) -> ends (mt_from_json z rd j).
Proof.
  intros H. unfold mt_from_json. repeat first [apply ends_bind; [first [apply ends_at|apply ends_u32|apply ends_copy|apply ends_vec; [exact H || exact ends_u32]]|intros ?]].
  done.
Qed.
Lemma ends_row m r c ls : ends (write_row m r c ls).
Proof.
  revert m c. induction ls; intros m c; cbn; [done|]. apply ends_bind; [apply ends_sint|intros v]. apply ends_bind; [|done].
  unfold nm_set, vset. by case_decide.
Qed.
Lemma ends_nm j : ends (nm_from_json j).
Proof.
  unfold nm_from_json. repeat first [apply ends_bind; [first [apply ends_at|apply ends_u64|apply ends_index]|intros ?]].
  apply ends_ofold. intros i m. apply ends_bind; [apply ends_index|intros ?]. apply ends_row.
Qed.
Lemma ends_bm j : ends (bm_from_json j).
Proof. unfold bm_from_json. by repeat first [apply ends_bind; [first [apply ends_at|apply ends_u32|apply ends_vec; exact ends_u64]|intros ?]]. Qed.

Section Unread.
  Context (sh : irng -> nat -> list nat * irng) (l : bool) (fuel : nat) (b1 b2 : Z -> float32).
  Let R := mt_rnd sh l fuel b1 b2.
  Context (A : algo R) (vw : aview A) (C : pol_codec (a_pol A)) (HC : tsetlini_codec R A vw C) (S : sch).
  Notation est := (est (a_pol A) (eS S) irng frng).
  Notation unread js := (~ (exists g f t, read_igen js = Ret g /\ read_fgen js = Ret f /\ read_ta C js = Ret t)).
  Lemma ends_ta j : ends (ta_from_json C j).
  Proof using HC.
    unfold ta_from_json. repeat first [apply ends_bind; [first [apply ends_at|apply ends_nm|apply ends_vec; exact ends_u32]|intros ?]].
    apply ends_bind; [|done]. destruct HC; cbn -[j_at]; [done|]. apply ends_bind; [apply ends_at|]. apply ends_bm.
  Qed.
  Lemma load_unread_cases steps (e : est) js : unread js ->
    (exists x e', load C S steps e js = Ret (Some x, e') /\ e_params e' = e_params e /\ e_ta e' = e_ta e /\ e_cache e' = e_cache e) \/
    (exists u, load C S steps e js = UB u).
  Proof using HC.
    intros Hn. assert (ends (read_igen js)) as Q1. { apply ends_bind; [apply ends_at|]. intros ?. apply ends_mt. exact ends_u32. }
    assert (ends (read_fgen js)) as Q2. { apply ends_bind; [apply ends_at|]. intros ?. apply ends_mt. exact ends_f32. }
    assert (ends (read_ta C js)) as Q3. { apply ends_bind; [apply ends_at|]. exact ends_ta. }
    unfold load. destruct (read_igen js) as [g|x|u|]; cbn [attempt]; [|left; by eexists _, _|right; by eexists|by destruct Q1].
    destruct (read_fgen js) as [f|x|u|]; cbn [attempt]; [|left; by eexists _, _|right; by eexists|by destruct Q2].
    destruct (read_ta C js) as [t|x|u|]; cbn [attempt]; [|left; by eexists _, _|right; by eexists|by destruct Q3].
    destruct Hn. by exists g, f, t.
  Qed.
  Theorem clf_unread (e : est) js : unread js ->
    (exists x e', clf_load C S e js = Ret (Some x, e') /\ e_params e' = e_params e /\ e_ta e' = e_ta e /\
       forall os, Forall (clf_const A) os -> orel (fun r1 r2 => r2.1 = r1.1) (clf_run (R := R) S A e os) (clf_run (R := R) S A e' os)) \/
    (exists u, clf_load C S e js = UB u).
  Proof using HC.
    intros Hn. destruct (load_unread_cases (clf_reset_steps S) e js Hn) as [(x & e' & E & Q1 & Q2 & Q3)|H]; [left|by right].
    exists x, e'. repeat (split; [done|]). intros os Ho. eapply orel_mono; [exact (clf_reads_same S A os e e' Ho (conj Q1 (conj Q2 Q3)))|]. by intros ? ? [].
  Qed.
  Theorem reg_unread (e : est) js : unread js ->
    (exists x e', reg_load C S e js = Ret (Some x, e') /\ e_params e' = e_params e /\ e_ta e' = e_ta e /\
       forall os, Forall (reg_const A) os -> orel (fun r1 r2 => r2.1 = r1.1) (reg_run (R := R) S A e os) (reg_run (R := R) S A e' os)) \/
    (exists u, reg_load C S e js = UB u).
  Proof using HC.
    intros Hn. destruct (load_unread_cases (reg_reset_steps S) e js Hn) as [(x & e' & E & Q1 & Q2 & Q3)|H]; [left|by right].
    exists x, e'. repeat (split; [done|]). intros os Ho. eapply orel_mono; [exact (reg_reads_same S A os e e' Ho (conj Q1 (conj Q2 Q3)))|]. by intros ? ? [].
  Qed.
End Unread.

(** the document without its member "params" *)
Definition drop_params (js : json) : json :=
  match js with JObj l => JObj (filter (fun kv => kv.1 <> "params"%string) l) | _ => js end.
Lemma drop_params_spec j l : reparse j = JObj l -> model_of j (drop_params (reparse j)) /\ j_at (drop_params (reparse j)) "params" = Throw JsonOutOfRange.
Proof.
  intros Ej. unfold model_of. rewrite Ej. cbn [drop_params]. assert (forall k, k <> "params"%string -> obj_find (filter (fun kv : string * json => kv.1 <> "params"%string) l) k = obj_find l k) as H.
  { intros k Hk. clear Ej; induction l as [|[k' v] l IH]; [done|]. rewrite filter_cons. cbn [fst]. case_decide as Hd; cbn [obj_find]; [by rewrite IH|].
    destruct (String.eqb_spec k k') as [->|]; [|exact IH]. by destruct Hd. }
  assert (obj_find (filter (fun kv : string * json => kv.1 <> "params"%string) l) "params" = None) as H'.
  { clear H. clear Ej; induction l as [|[k' v] l IH]; [done|]. rewrite filter_cons. cbn [fst]. case_decide as Hd; cbn [obj_find]; [|exact IH].
    destruct (String.eqb_spec "params" k') as [<-|]; [by destruct (Hd eq_refl)|exact IH]. }
  split; [|unfold j_at; by rewrite H']. intros k Hk. unfold j_at. rewrite H; [done|]. intros ->. by rewrite !elem_of_cons, elem_of_nil in Hk; naive_solver.
Qed.
Lemma saved_object {P} (C : pol_codec P) S kind (e : est P (eS S) irng frng) j : to_json C S kind e = Ret j -> exists l, reparse j = JObj l.
Proof. unfold to_json. intros H. apply obind_ret_inv in H as (t & _ & H). injection H as <-. by eexists. Qed.
