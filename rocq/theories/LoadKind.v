(** * Loading the document of another kind of estimator or of the other algorithm. *)
From Verif Require Import FloatFacts.
From Verif Require Export LoadProps.
From stdpp Require Import list.
Local Open Scope Z_scope.

(** ** Parameters of the other kind *)
Lemma fit_lookup_reg nf p k : k <> "number_of_features"%string -> reg_fit_params nf p !! k = p !! k.
Proof. intros H. unfold reg_fit_params. by rewrite lookup_insert_ne. Qed.
Lemma fit_lookup_clf L nf p k : k <> "number_of_features"%string -> k <> "number_of_labels"%string -> clf_fit_params L nf p !! k = p !! k.
Proof. intros H H'. unfold clf_fit_params. by rewrite !lookup_insert_ne. Qed.
(** a parameter set of a regressor has no number of labels *)
Lemma reg_made_unlabelled p : reg_made p -> p !! "number_of_labels"%string = None.
Proof.
  intros (hw & rd & [(u & Hu & E)|(ms & E)]).
  - destruct (reg_factory_preserves hw rd u p Hu E) as (Hk & _). rewrite Hk by done. reflexivity.
  - rewrite jobject_members in E. change (reg_doc hw rd (members ms) = Ret (Right p)) in E.
    destruct (obj_cases hw rd (reg_doc hw rd) ms (or_intror eq_refl)) as [[Hf _]|(k & v & _ & _ & Q)];
      [|destruct Q as [[_ Q]|[(t & _ & _ & Q)|(t & _ & _ & Q)]]; rewrite Q in E; discriminate E].
    destruct (reg_doc_fine hw rd _ (members_sorted ms) Hf) as (p0 & E0 & Hw & _ & [(_ & _ & p1 & E1 & Hc & Hk)|[_ Q]]); [|rewrite Q in E; discriminate E].
    rewrite E in E1. injection E1 as <-. rewrite Hk by done.
    destruct (p0 !! "number_of_labels"%string) as [v0|] eqn:Ek; [|vm_compute; reflexivity].
    destruct (Hw _ _ Ek) as (t & Ht & _). discriminate Ht.
Qed.
Lemma at_missing p k : p !! k = None -> at_int p k = Throw OutOfRange.
Proof. intros H. unfold at_int, p_at. by rewrite H. Qed.

Lemma clf_reset_stops S p (c : cache (eS S)) : P_number_of_labels p = Throw OutOfRange -> clf_reset_steps S p c = Ret (Some OutOfRange, c).
Proof. intros H. unfold clf_reset_steps, P_clf_outputs. by rewrite H. Qed.
Lemma reg_reset_stops S p (c : cache (eS S)) : P_reg_outputs p = Throw OutOfRange -> reg_reset_steps S p c = Ret (Some OutOfRange, c).
Proof. intros H. unfold reg_reset_steps. by rewrite H. Qed.

Section Kind.
  Context (sh : irng -> nat -> list nat * irng) (l : bool) (fuel : nat) (b1 b2 : Z -> float32) (Hsh : shuffle_ok sh).
  Let R := mt_rnd sh l fuel b1 b2.
  Let HR : rnd_ok R irng_ok frng_ok := mt_rnd_ok sh l fuel b1 b2 Hsh.

  (** the first three members are read, then the parameters, then the buffers are rebuilt *)
  Lemma load_saved {P1 P2} (C1 : pol_codec P1) (C2 : pol_codec P2) S1 S2 kind steps (e1 : est P2 (eS S1) irng frng) (e2 : est P1 (eS S2) irng frng) t x c :
    (exists jt, ta_to_json C1 (e_ta e2) = Ret jt /\ ta_from_json C2 (reparse jt) = Ret t) -> irng_ok (e_igen e2) -> frng_ok (e_fgen e2) ->
    storable_params (e_params e2) -> steps (kept_params (e_params e2)) (e_cache e1) = Ret (x, c) ->
    exists j, to_json C1 S2 kind e2 = Ret j /\
      load C2 S1 steps e1 (reparse j) = Ret (x, Est (kept_params (e_params e2)) t c (e_igen e2) (e_fgen e2)).
  Proof using.
    intros (jt & Et & Eb) Hg Hf Hp Hc. unfold to_json. rewrite Et. cbn [obind]. eexists. split; [reflexivity|].
    unfold load, read_igen, read_fgen, read_ta, read_params_t.
    rewrite (at_reparse _ _ (irng_to_json (e_igen e2))) by reflexivity. cbn [obind]. rewrite irng_back by exact Hg. cbn [attempt].
    rewrite (at_reparse _ _ (frng_to_json (e_fgen e2))) by reflexivity. cbn [obind]. rewrite frng_back by exact Hf. cbn [attempt].
    rewrite (at_reparse _ _ jt) by reflexivity. cbn [obind]. rewrite Eb. cbn [attempt].
    rewrite (at_reparse _ _ (params_to_json (e_params e2))) by reflexivity. cbn [obind].
    destruct (params_back _ Hp) as (q & -> & Er). cbn [attempt e_params e_cache e_ta e_igen e_fgen]. rewrite Er, Hc. cbn [obind].
    rewrite (assign_id _ _ (proj1 Hg)), (assign_id _ _ (proj1 Hf)). reflexivity.
  Qed.
  (** a learning state that cannot be read: only the generators change *)
  Lemma load_saved_ta {P1 P2} (C1 : pol_codec P1) (C2 : pol_codec P2) S1 S2 kind steps (e1 : est P2 (eS S1) irng frng) (e2 : est P1 (eS S2) irng frng) x :
    (exists jt, ta_to_json C1 (e_ta e2) = Ret jt /\ ta_from_json C2 (reparse jt) = Throw x) -> irng_ok (e_igen e2) -> frng_ok (e_fgen e2) ->
    exists j, to_json C1 S2 kind e2 = Ret j /\
      load C2 S1 steps e1 (reparse j) = Ret (Some x, Est (e_params e1) (e_ta e1) (e_cache e1) (e_igen e2) (e_fgen e2)).
  Proof using.
    intros (jt & Et & Eb) Hg Hf. unfold to_json. rewrite Et. cbn [obind]. eexists. split; [reflexivity|].
    unfold load, read_igen, read_fgen, read_ta, read_params_t.
    rewrite (at_reparse _ _ (irng_to_json (e_igen e2))) by reflexivity. cbn [obind]. rewrite irng_back by exact Hg. cbn [attempt].
    rewrite (at_reparse _ _ (frng_to_json (e_fgen e2))) by reflexivity. cbn [obind]. rewrite frng_back by exact Hf. cbn [attempt].
    rewrite (at_reparse _ _ jt) by reflexivity. cbn [obind]. rewrite Eb. cbn [attempt].
    rewrite (assign_id _ _ (proj1 Hg)), (assign_id _ _ (proj1 Hf)). reflexivity.
  Qed.

  Section One.
    Context (A : algo R) (vw : aview A) (C : pol_codec (a_pol A)) (HC : tsetlini_codec R A vw C).
    Notation estS S := (est (a_pol A) (eS S) (eG R) (eF R)).
    Lemma clf_params_storable S a p os rs (e : estS S) L nf : sch_ok S -> clf_created a p -> storable_params p ->
      clf_history S A vw p os rs e -> clf_dims_of os rs = Some (L, nf) -> storable_params (e_params e) /\ e_params e = clf_fit_params L nf p.
    Proof using HC Hsh.
      intros HS Hc Hst Hh Hd. pose proof (cc_valid _ _ Hc) as Ha.
      destruct (wide_enough (ca_counting a) (ca_states a)) as [H1 H2].
      { destruct Ha as [_ [] _]. done. } { destruct Ha as [[] [] _]. unfold is_int in *. lia. }
      destruct (codec_laws sh l fuel b1 b2 Hsh A vw C HC _ _ H1 H2) as (I & E1n & E1p & E2 & Lw & Hback).
      pose proof (clf_history_at (R := R) irng_ok frng_ok HR S HS A vw _ _ I E1n E1p E2 Lw a p os rs e Hc eq_refl eq_refl Hh) as At.
      rewrite Hd in At. destruct At as [(_ & Hdim & Hcore) Ep]. split; [|exact Ep].
      destruct (clf_n_bound a L nf Ha _ Hdim) as [Hn Hn0]. destruct (clf_opl_facts a Ha) as (Ecl & _).
      assert (Z.of_nat (2 * (L * clf_opl a)) <= int_max) as Hn2 by (pose proof (cd_n _ _ _ _ Hdim); nia).
      destruct Hcore as [Hauto Hws _ _ _ _ _]. cbn [fst snd] in *.
      destruct (Hback _ _ _ _ (ta_weights (e_ta e)) Hauto Hn0 Hn2) as [Hnf _].
      { eapply weights_words; [exact Hws|]. destruct Ha as [[] _ _]. unfold is_int in *. lia. }
      assert (Z.of_nat L <= int_max) as HL. { assert (L <= L * clf_opl a)%nat; [|lia]. clear -Hn0. destruct (clf_opl a); nia. }
      destruct (clf_fit_storable L nf p) as [Hst' _]; [done|done|done|]. by rewrite <- Ep in Hst'.
    Qed.
    Lemma reg_params_storable S a p os rs (e : estS S) nf : sch_ok S -> reg_created a p -> storable_params p ->
      reg_history S A vw p os rs e -> reg_dims_of os rs = Some nf -> storable_params (e_params e) /\ e_params e = reg_fit_params nf p.
    Proof using HC Hsh.
      intros HS Hc Hst Hh Hd. pose proof (rc_valid _ _ Hc) as Ha.
      destruct (wide_enough (ra_counting a) (ra_states a)) as [H1 H2].
      { destruct Ha as [_ [] _]. done. } { destruct Ha as [[] [] _]. unfold is_int in *. lia. }
      destruct (codec_laws sh l fuel b1 b2 Hsh A vw C HC _ _ H1 H2) as (I & E1n & E1p & E2 & Lw & Hback).
      pose proof (reg_history_at (R := R) irng_ok frng_ok HR S HS A vw _ _ I E1n E1p E2 Lw a p os rs e Hc eq_refl eq_refl Hh) as At.
      rewrite Hd in At. destruct At as [(_ & Hdim & Hcore) Ep]. split; [|exact Ep]. destruct (reg_n_facts a Ha) as (Ecl & _ & Hn0).
      assert (Z.of_nat (2 * reg_n a) <= int_max) as Hn2 by (destruct Ha as [[] _ _]; unfold is_int in *; lia).
      destruct Hcore as [Hauto Hws _ _ _ _]. cbn [fst snd] in *.
      destruct (Hback _ _ _ _ (ta_weights (e_ta e)) Hauto ltac:(lia) Hn2) as [Hnf _].
      { eapply weights_words; [exact Hws|]. destruct Ha as [[] _ _]. unfold is_int in *. lia. }
      destruct (reg_fit_storable nf p) as [Hst' _]; [done|done|]. by rewrite <- Ep in Hst'.
    Qed.

    (** a regressor's document in a classifier *)
    Theorem reg_into_clf S1 S2 a2 p2 os2 rs2 (e1 : estS S1) (e2 : estS S2) nf : sch_ok S2 ->
      reg_created a2 p2 -> storable_params p2 -> p2 !! "number_of_labels"%string = None ->
      reg_history S2 A vw p2 os2 rs2 e2 -> reg_dims_of os2 rs2 = Some nf ->
      exists j e', reg_to_json C S2 e2 = Ret j /\ clf_load C S1 e1 (reparse j) = Ret (Some OutOfRange, e') /\ e_ta e' = e_ta e2 /\
        forall x, v_phys vw x -> v_ok vw nf x -> clf_predict1 (R := R) S1 A e' x = Throw OutOfRange.
    Proof using HC Hsh.
      intros HS2 Hc Hst Hnl Hh Hd.
      destruct (reg_params_storable S2 a2 p2 os2 rs2 e2 nf HS2 Hc Hst Hh Hd) as [Hst' Ep].
      destruct (reg_fitted_facts sh l fuel b1 b2 Hsh A vw C HC S2 a2 p2 os2 rs2 e2 nf HS2 Hc Hh Hd) as (I & E1n & E1p & E2 & Lw & _ & (Ha & Hdim & Hcore) & _ & Hta & Hf).
      destruct Hcore as [Hauto _ _ _ _ Hg]. cbn [fst snd] in Hg, Hauto. destruct (reg_n_facts a2 Ha) as (_ & _ & Hn0).
      assert (P_number_of_labels (kept_params (e_params e2)) = Throw OutOfRange) as Hl.
      { apply at_missing. rewrite kept_lookup, Ep, fit_lookup_reg by done. by rewrite Hnl. }
      destruct (load_saved C C S1 S2 "regressor" (clf_reset_steps S1) e1 e2 (e_ta e2) (Some OutOfRange) (e_cache e1) Hta Hg Hf Hst') as (j & Ej & El).
      { exact (clf_reset_stops S1 _ _ Hl). }
      set (e' := Est (kept_params (e_params e2)) (e_ta e2) (e_cache e1) (e_igen e2) (e_fgen e2) : estS S1).
      exists j, e'. split; [exact Ej|]. split; [exact El|]. split; [done|]. intros x Hph Hx.
      assert (is_fitted A (e_ta e') = true) as Hfit by exact (rows_fitted (R := R) irng_ok A vw _ _ _ _ I _ _ _ (Lw True True) _ _ _ Hauto Hn0).
      assert (P_number_of_features (e_params e') = Ret (Z.of_nat nf)) as Hnf by exact (eq_trans (kept_int _ _) (rd_features _ _ _ Hdim)).
      destruct (check_single_spec (R := R) irng_ok S1 A vw _ _ _ _ I _ _ _ (Lw True True) e' nf x Hph Hfit Hnf) as [[_ E]|[Hno _]]; [|done].
      unfold clf_predict1. rewrite E. cbn [obind]. rewrite decide_False by naive_solver. destruct Hdim as [[] _]. 
      rewrite (eq_trans (kept_int _ _) rh_njobs : P_n_jobs (e_params e') = _), (eq_trans (kept_int _ _) rh_tile : P_tile (e_params e') = _). cbn [obind].
      unfold P_clf_outputs. by rewrite (Hl : P_number_of_labels (e_params e') = _).
    Qed.
    (** a classifier's document in a regressor; a parameter set made from JSON may have the key of the other kind *)
    Theorem clf_into_reg S1 S2 a2 p2 os2 rs2 (e1 : estS S1) (e2 : estS S2) L nf : sch_ok S2 ->
      clf_created a2 p2 -> storable_params p2 -> p2 !! "number_of_regressor_clauses"%string = None ->
      clf_history S2 A vw p2 os2 rs2 e2 -> clf_dims_of os2 rs2 = Some (L, nf) ->
      exists j e', clf_to_json C S2 e2 = Ret j /\ reg_load C S1 e1 (reparse j) = Ret (Some OutOfRange, e') /\ e_ta e' = e_ta e2 /\
        forall x, v_phys vw x -> v_ok vw nf x -> reg_predict1 (R := R) S1 A e' x = Throw OutOfRange.
    Proof using HC Hsh.
      intros HS2 Hc Hst Hnl Hh Hd.
      destruct (clf_params_storable S2 a2 p2 os2 rs2 e2 L nf HS2 Hc Hst Hh Hd) as [Hst' Ep].
      destruct (clf_fitted_facts sh l fuel b1 b2 Hsh A vw C HC S2 a2 p2 os2 rs2 e2 L nf HS2 Hc Hh Hd) as (I & E1n & E1p & E2 & Lw & _ & (Ha & Hdim & Hcore) & _ & Hta).
      destruct Hcore as [Hauto _ _ _ _ Hg Hf]. cbn [fst snd] in Hg, Hauto, Hf. destruct (clf_n_bound a2 L nf Ha _ Hdim) as [_ Hn0].
      assert (P_reg_outputs (kept_params (e_params e2)) = Throw OutOfRange) as Hl.
      { unfold P_reg_outputs. rewrite at_missing; [done|]. rewrite kept_lookup, Ep, fit_lookup_clf by done. by rewrite Hnl. }
      destruct (load_saved C C S1 S2 "classifier" (reg_reset_steps S1) e1 e2 (e_ta e2) (Some OutOfRange) (e_cache e1) Hta Hg Hf Hst') as (j & Ej & El).
      { exact (reg_reset_stops S1 _ _ Hl). }
      set (e' := Est (kept_params (e_params e2)) (e_ta e2) (e_cache e1) (e_igen e2) (e_fgen e2) : estS S1).
      exists j, e'. split; [exact Ej|]. split; [exact El|]. split; [done|]. intros x Hph Hx.
      assert (is_fitted A (e_ta e') = true) as Hfit by exact (rows_fitted (R := R) irng_ok A vw _ _ _ _ I _ _ _ (Lw True True) _ _ _ Hauto Hn0).
      assert (P_number_of_features (e_params e') = Ret (Z.of_nat nf)) as Hnf by exact (eq_trans (kept_int _ _) (cd_features _ _ _ _ Hdim)).
      destruct (check_single_spec (R := R) irng_ok S1 A vw _ _ _ _ I _ _ _ (Lw True True) e' nf x Hph Hfit Hnf) as [[_ E]|[Hno _]]; [|done].
      unfold reg_predict1. rewrite E. cbn [obind]. rewrite decide_False by naive_solver. destruct Hdim as [[] _ _ _ _]. 
      rewrite (eq_trans (kept_int _ _) ch_njobs : P_n_jobs (e_params e') = _), (eq_trans (kept_int _ _) ch_tile : P_tile (e_params e') = _). cbn [obind].
      by rewrite (Hl : P_reg_outputs (e_params e') = _).
    Qed.
  End One.

  (** ** The other algorithm *)
  Notation CL := (classic R).
  Notation BW := (Algo.bitwise R).
  Notation clest S := (est (a_pol CL) (eS S) (eG R) (eF R)).
  Notation bwest S := (est (a_pol BW) (eS S) (eG R) (eF R)).
  Lemma bw_cl_inv w N n nf m p : bw_full R w N n nf m p -> cl_inv R w N n nf m tt.
  Proof using.
    intros [((Hg & _) & Ew & Er & Ec & _) Hv]. cbn [fst snd] in *. repeat (split; [done|]). intros r c Hr Hc. exact (proj1 (Hv r c Hr Hc)).
  Qed.
  (** a classic state reads the learning state of a bitwise one and ignores the polarity *)
  Lemma bitwise_as_classic w n nf m ws p : (w = 8 \/ w = 16 \/ w = 32) -> bw_struct R w n nf m p -> (0 < n)%nat ->
    Forall (fun w => 0 <= w < 4294967296) ws ->
    exists j, ta_to_json bitwise_codec (TA m ws p) = Ret j /\ ta_from_json classic_codec (reparse j) = Ret (TA m ws tt).
  Proof using.
    intros Hw ((Hg & _) & Ew & Er & _) Hn Hws. cbn [fst snd] in *.
    destruct (nm_back m Hg) as (j & Ej & Eb); [by rewrite Ew|lia|].
    unfold ta_to_json, ta_from_json. cbn [ta_matrix ta_weights ta_pol]. rewrite Ej. cbn [obind]. eexists. split; [reflexivity|].
    rewrite (at_reparse _ _ j) by reflexivity. cbn [obind]. rewrite Eb. cbn [obind].
    rewrite (at_reparse _ _ (JArr (map JUns ws))) by reflexivity. cbn [obind]. rewrite weights_back by done. done.
  Qed.
  (** a bitwise state does not find the polarity in the document of a classic one *)
  Lemma classic_as_bitwise w N n nf m ws p : (w = 8 \/ w = 16 \/ w = 32) -> cl_inv R w N n nf m p -> (0 < n)%nat ->
    Forall (fun w => 0 <= w < 4294967296) ws ->
    exists j, ta_to_json classic_codec (TA m ws p) = Ret j /\ ta_from_json bitwise_codec (reparse j) = Throw JsonOutOfRange.
  Proof using.
    intros Hw (Hg & Ew & Er & _) Hn Hws.
    destruct (nm_back m Hg) as (j & Ej & Eb); [by rewrite Ew|lia|].
    unfold ta_to_json, ta_from_json. cbn [ta_matrix ta_weights ta_pol]. rewrite Ej. cbn [obind]. eexists. split; [reflexivity|].
    rewrite (at_reparse _ _ j) by reflexivity. cbn [obind]. rewrite Eb. cbn [obind].
    rewrite (at_reparse _ _ (JArr (map JUns ws))) by reflexivity. cbn [obind]. rewrite weights_back by done. cbn [obind bitwise_codec pc_read].
    rewrite jobject_members. cbn [reparse j_at]. rewrite obj_find_reparse, members_find. reflexivity.
  Qed.

  Theorem clf_bitwise_in_classic S1 S2 a p os rs (e : bwest S1) (e0 : clest S2) L nf : sch_ok S1 -> sch_ok S2 ->
    clf_created a p -> 2 <= ca_states a -> storable_params p -> finite_reals p -> clf_history S1 BW (bw_view R) p os rs e -> clf_dims_of os rs = Some (L, nf) ->
    exists j e', clf_to_json bitwise_codec S1 e = Ret j /\ clf_load classic_codec S2 e0 (reparse j) = Ret (None, e') /\
      e_params e' = e_params e /\ ta_matrix (e_ta e') = ta_matrix (e_ta e) /\ ta_weights (e_ta e') = ta_weights (e_ta e) /\
      forall x b, dense_ok nf x -> bits_ok nf b -> same_sample nf x b ->
        exists v y q1 q2 q3 q4, clf_decision1 S1 BW e b = Ret (Right v, q1) /\ clf_decision1 S2 CL e' x = Ret (Right v, q2) /\
          clf_predict1 S1 BW e b = Ret (Right y, q3) /\ clf_predict1 S2 CL e' x = Ret (Right y, q4).
  Proof using Hsh.
    intros HS1 HS2 Hc H2 Hst Hfin Hh Hd. pose proof (cc_valid _ _ Hc) as Ha.
    destruct (wide_enough (ca_counting a) (ca_states a)) as [W1 W2]. { destruct Ha as [_ [] _]. done. } { destruct Ha as [[] [] _]. unfold is_int in *. lia. }
    pose proof (clf_bitwise_at (R := R) irng_ok frng_ok HR S1 HS1 a p os rs e Hc H2 Hh) as At. rewrite Hd in At.
    destruct (clf_params_storable BW (bw_view R) bitwise_codec (codec_bitwise R) S1 a p os rs e L nf HS1 Hc Hst Hh Hd) as [Hst' Ep].
    pose proof At as [Hfit _]. destruct Hfit as (_ & Hdim & Hcore). destruct (clf_n_bound a L nf Ha _ Hdim) as [Hn Hn0].
    destruct Hcore as [Hauto Hws Hlens Hct (ct0 & Ect & Hrate) Hg Hf]. cbn [fst snd] in *.
    assert (finite_reals (e_params e)) as Hfin'.
    { rewrite Ep. unfold clf_fit_params. by repeat apply insert_finite. }
    destruct (bitwise_as_classic _ _ _ _ (ta_weights (e_ta e)) _ W1 (proj1 Hauto) Hn0) as (jt & Et & Eb).
    { eapply weights_words; [exact Hws|]. destruct Ha as [[] _ _]. unfold is_int in *. lia. }
    destruct (load_saved bitwise_codec classic_codec S2 S1 "classifier" (clf_reset_steps S2) e0 e (TA (ta_matrix (e_ta e)) (ta_weights (e_ta e)) tt) None
      (Cache (replicate (L * clf_opl a) 0) (replicate (L * clf_opl a) 0) (replicate L 0) ct0 (ca_sched (e_cache e0)))) as (j & Ej & El); [|exact Hg|exact Hf|exact Hst'|..].
    { exists jt. split; [|exact Eb]. revert Et. clear. destruct e as [? [] ? ? ?]. exact id. }
    { refine (eq_trans (f_equal (fun q => clf_reset_steps S2 q (e_cache e0)) (kept_finite _ Hfin')) _).
      unfold clf_reset_steps. rewrite (P_outputs a L nf Ha _ Hdim). cbn [attempt]. rewrite (cd_labels _ _ _ _ Hdim). cbn [attempt].
      rewrite (ch_s _ _ (cd_has _ _ _ _ Hdim)), (cd_features _ _ _ _ Hdim). cbn [obind]. rewrite Ect. cbn [attempt]. by rewrite !Nat2Z.id. }
    exists j. eexists. split; [exact Ej|]. split; [exact (eq_trans El (f_equal (fun q => Ret (None, Est q _ _ _ _)) (kept_finite _ Hfin')))|].
    split; [done|]. split; [done|]. split; [done|].
    match goal with |- context [clf_decision1 S2 CL ?q] => set (e' := q : clest S2) end.
    assert (clf_fitted (R := R) irng_ok frng_ok S2 CL True True (cl_inv R (width_of (ca_counting a) (ca_states a)) (ca_states a)) a L nf e') as Hfit'.
    { split; [done|]. split; [exact Hdim|]. pose proof (ct_good_true (R := R) irng_ok (ca_s a) nf) as Hgood. unfold ct_good in Hgood. rewrite Ect in Hgood.
      constructor; cbn [fst snd e' e_ta e_cache e_igen e_fgen ca_ct]; try done.
      - exact (bw_cl_inv _ _ _ _ _ _ Hauto).
      - unfold lens. cbn [ca_fb ca_out ca_sum]. by rewrite !replicate_length.
      - by exists ct0. }
    assert (same_model (R := R) (L * clf_opl a) nf (e_ta e') (e_ta e)) as Hm.
    { split; [done|]. intros r c Hr Hcc. exact (proj2 (proj2 Hauto r c Hr Hcc)). }
    pose proof (bitwise_laws R irng_ok frng_ok HR True True _ _ W1 (conj H2 (proj2 W2))) as Lb.
    pose proof (classic_laws R irng_ok frng_ok HR True True _ _ W1 W2) as Lc.
    intros x b Hx Hb Hs. pose proof (votes_agree (R := R) a L nf (e_ta e') (e_ta e) x b Hm Hs) as Ev.
    destruct (clf_decision1_spec (R := R) irng_ok frng_ok S1 HS1 BW (bw_view R) _ _ _ _ _ _ _ _ Lb a L nf Ha e (proj1 At) b (proj1 (proj2 Hb))) as [(_ & c1 & Q1 & _)|[Hno _]]; [|done].
    destruct (clf_decision1_spec (R := R) irng_ok frng_ok S2 HS2 CL (cl_view R) _ _ _ _ _ _ _ _ Lc a L nf Ha e' Hfit' x Logic.I) as [(_ & c2 & Q2 & _)|[Hno _]]; [|done].
    destruct (clf_predict1_spec (R := R) irng_ok frng_ok S1 HS1 BW (bw_view R) _ _ _ _ _ _ _ _ Lb a L nf Ha e (proj1 At) b (proj1 (proj2 Hb))) as [(_ & c3 & Q3 & _)|[Hno _]]; [|done].
    destruct (clf_predict1_spec (R := R) irng_ok frng_ok S2 HS2 CL (cl_view R) _ _ _ _ _ _ _ _ Lc a L nf Ha e' Hfit' x Logic.I) as [(_ & c4 & Q4 & _)|[Hno _]]; [|done].
    eexists _, _, _, _, _, _. split; [exact (eq_trans Q1 (f_equal (fun w => Ret (Right w, _)) Ev))|]. split; [exact Q2|].
    split; [exact (eq_trans Q3 (f_equal (fun w => Ret (Right (Z.of_nat (argmax w)), _)) Ev))|]. exact Q4.
  Qed.
  Theorem reg_bitwise_in_classic S1 S2 a p os rs (e : bwest S1) (e0 : clest S2) nf : sch_ok S1 -> sch_ok S2 ->
    reg_created a p -> 2 <= ra_states a -> storable_params p -> finite_reals p -> reg_history S1 BW (bw_view R) p os rs e -> reg_dims_of os rs = Some nf ->
    exists j e', reg_to_json bitwise_codec S1 e = Ret j /\ reg_load classic_codec S2 e0 (reparse j) = Ret (None, e') /\
      e_params e' = e_params e /\ ta_matrix (e_ta e') = ta_matrix (e_ta e) /\ ta_weights (e_ta e') = ta_weights (e_ta e) /\
      forall x b, dense_ok nf x -> bits_ok nf b -> same_sample nf x b ->
        exists v q1 q2, reg_predict1 S1 BW e b = Ret (Right v, q1) /\ reg_predict1 S2 CL e' x = Ret (Right v, q2).
  Proof using Hsh.
    intros HS1 HS2 Hc H2 Hst Hfin Hh Hd. pose proof (rc_valid _ _ Hc) as Ha.
    destruct (wide_enough (ra_counting a) (ra_states a)) as [W1 W2]. { destruct Ha as [_ [] _]. done. } { destruct Ha as [[] [] _]. unfold is_int in *. lia. }
    pose proof (reg_bitwise_at (R := R) irng_ok frng_ok HR S1 HS1 a p os rs e Hc H2 Hh) as At. rewrite Hd in At.
    destruct (reg_params_storable BW (bw_view R) bitwise_codec (codec_bitwise R) S1 a p os rs e nf HS1 Hc Hst Hh Hd) as [Hst' Ep].
    pose proof (reg_history_fgen (R := R) irng_ok frng_ok HR S1 BW (bw_view R) p os rs e Hh) as Hf.
    pose proof At as [Hfit _]. destruct Hfit as (_ & Hdim & Hcore). destruct (reg_n_facts a Ha) as (Ecl & _ & Hn0).
    destruct Hcore as [Hauto Hws Hlens Hct (ct0 & Ect & Hrate) Hg]. cbn [fst snd] in *.
    assert (finite_reals (e_params e)) as Hfin'. { rewrite Ep. unfold reg_fit_params. by apply insert_finite. }
    destruct (bitwise_as_classic _ _ _ _ (ta_weights (e_ta e)) _ W1 (proj1 Hauto) ltac:(lia)) as (jt & Et & Eb).
    { eapply weights_words; [exact Hws|]. destruct Ha as [[] _ _]. unfold is_int in *. lia. }
    destruct (load_saved bitwise_codec classic_codec S2 S1 "regressor" (reg_reset_steps S2) e0 e (TA (ta_matrix (e_ta e)) (ta_weights (e_ta e)) tt) None
      (Cache [] (replicate (reg_n a) 0) [] ct0 (ca_sched (e_cache e0)))) as (j & Ej & El); [|exact Hg|exact Hf|exact Hst'|..].
    { exists jt. split; [|exact Eb]. revert Et. clear. destruct e as [? [] ? ? ?]. exact id. }
    { refine (eq_trans (f_equal (fun q => reg_reset_steps S2 q (e_cache e0)) (kept_finite _ Hfin')) _).
      unfold reg_reset_steps. rewrite (P_reg_n a Ha _ (rd_has _ _ _ Hdim)). cbn [attempt].
      rewrite (rh_s _ _ (rd_has _ _ _ Hdim)), (rd_features _ _ _ Hdim). cbn [obind]. rewrite Ect. cbn [attempt]. by rewrite !Nat2Z.id. }
    exists j. eexists. split; [exact Ej|]. split; [exact (eq_trans El (f_equal (fun q => Ret (None, Est q _ _ _ _)) (kept_finite _ Hfin')))|].
    split; [done|]. split; [done|]. split; [done|].
    match goal with |- context [reg_predict1 S2 CL ?q] => set (e' := q : clest S2) end.
    assert (reg_fitted (R := R) irng_ok S2 CL True True (cl_inv R (width_of (ra_counting a) (ra_states a)) (ra_states a)) a nf e') as Hfit'.
    { split; [done|]. split; [exact Hdim|]. pose proof (ct_good_true (R := R) irng_ok (ra_s a) nf) as Hgood. unfold ct_good in Hgood. rewrite Ect in Hgood.
      constructor; cbn [fst snd e' e_ta e_cache e_igen e_fgen ca_ct]; try done.
      - exact (bw_cl_inv _ _ _ _ _ _ Hauto).
      - cbn [ca_fb ca_out ca_sum]. by rewrite !replicate_length.
      - by exists ct0. }
    assert (same_model (R := R) (reg_n a) nf (e_ta e') (e_ta e)) as Hm.
    { split; [done|]. intros r c Hr Hcc. exact (proj2 (proj2 Hauto r c Hr Hcc)). }
    pose proof (bitwise_laws R irng_ok frng_ok HR True True _ _ W1 (conj H2 (proj2 W2))) as Lb.
    pose proof (classic_laws R irng_ok frng_ok HR True True _ _ W1 W2) as Lc.
    intros x b Hx Hb Hs. pose proof (response_agree (R := R) a nf (e_ta e') (e_ta e) x b Hm Hs) as Ev.
    destruct (reg_predict1_spec (R := R) irng_ok S1 HS1 BW (bw_view R) _ _ _ _ _ _ _ _ Lb a nf Ha e (proj1 At) b (proj1 (proj2 Hb))) as [(_ & c1 & Q1 & _)|[Hno _]]; [|done].
    destruct (reg_predict1_spec (R := R) irng_ok S2 HS2 CL (cl_view R) _ _ _ _ _ _ _ _ Lc a nf Ha e' Hfit' x Logic.I) as [(_ & c2 & Q2 & _)|[Hno _]]; [|done].
    eexists _, _, _. split; [exact (eq_trans Q1 (f_equal (fun w => Ret (Right w, _)) Ev))|]. exact Q2.
  Qed.

  Theorem clf_classic_in_bitwise S1 S2 a p os rs (e : clest S1) (e0 : bwest S2) L nf : sch_ok S1 ->
    clf_created a p -> clf_history S1 CL (cl_view R) p os rs e -> clf_dims_of os rs = Some (L, nf) ->
    exists j e', clf_to_json classic_codec S1 e = Ret j /\ clf_load bitwise_codec S2 e0 (reparse j) = Ret (Some JsonOutOfRange, e') /\
      e_params e' = e_params e0 /\ e_ta e' = e_ta e0 /\
      forall os', Forall (clf_const BW) os' -> orel (fun r1 r2 => r2.1 = r1.1) (clf_run S2 BW e0 os') (clf_run S2 BW e' os').
  Proof using Hsh.
    intros HS1 Hc Hh Hd. pose proof (cc_valid _ _ Hc) as Ha.
    destruct (wide_enough (ca_counting a) (ca_states a)) as [W1 W2]. { destruct Ha as [_ [] _]. done. } { destruct Ha as [[] [] _]. unfold is_int in *. lia. }
    pose proof (clf_classic_at (R := R) irng_ok frng_ok HR S1 HS1 a p os rs e Hc Hh) as At. rewrite Hd in At. destruct At as [(_ & Hdim & Hcore) _].
    destruct (clf_n_bound a L nf Ha _ Hdim) as [Hn Hn0]. destruct Hcore as [Hauto Hws _ _ _ Hg Hf]. cbn [fst snd] in *.
    destruct (classic_as_bitwise _ _ _ _ _ (ta_weights (e_ta e)) _ W1 Hauto Hn0) as (jt & Et & Eb).
    { eapply weights_words; [exact Hws|]. destruct Ha as [[] _ _]. unfold is_int in *. lia. }
    destruct (load_saved_ta classic_codec bitwise_codec S2 S1 "classifier" (clf_reset_steps S2) e0 e JsonOutOfRange) as (j & Ej & El); [|exact Hg|exact Hf|].
    { exists jt. split; [|exact Eb]. revert Et. clear. destruct e as [? [] ? ? ?]. exact id. }
    exists j. eexists. split; [exact Ej|]. split; [exact El|]. split; [done|]. split; [done|]. intros os' Ho.
    eapply orel_mono; [apply (clf_reads_same S2 BW os' e0); [exact Ho|exact (conj eq_refl (conj eq_refl eq_refl))]|]. by intros ? ? [].
  Qed.
  Theorem reg_classic_in_bitwise S1 S2 a p os rs (e : clest S1) (e0 : bwest S2) nf : sch_ok S1 ->
    reg_created a p -> reg_history S1 CL (cl_view R) p os rs e -> reg_dims_of os rs = Some nf ->
    exists j e', reg_to_json classic_codec S1 e = Ret j /\ reg_load bitwise_codec S2 e0 (reparse j) = Ret (Some JsonOutOfRange, e') /\
      e_params e' = e_params e0 /\ e_ta e' = e_ta e0 /\
      forall os', Forall (reg_const BW) os' -> orel (fun r1 r2 => r2.1 = r1.1) (reg_run S2 BW e0 os') (reg_run S2 BW e' os').
  Proof using Hsh.
    intros HS1 Hc Hh Hd. pose proof (rc_valid _ _ Hc) as Ha.
    destruct (wide_enough (ra_counting a) (ra_states a)) as [W1 W2]. { destruct Ha as [_ [] _]. done. } { destruct Ha as [[] [] _]. unfold is_int in *. lia. }
    pose proof (reg_classic_at (R := R) irng_ok frng_ok HR S1 HS1 a p os rs e Hc Hh) as At. rewrite Hd in At. destruct At as [(_ & Hdim & Hcore) _].
    pose proof (reg_history_fgen (R := R) irng_ok frng_ok HR S1 CL (cl_view R) p os rs e Hh) as Hf.
    destruct (reg_n_facts a Ha) as (_ & _ & Hn0). destruct Hcore as [Hauto Hws _ _ _ Hg]. cbn [fst snd] in *.
    destruct (classic_as_bitwise _ _ _ _ _ (ta_weights (e_ta e)) _ W1 Hauto ltac:(lia)) as (jt & Et & Eb).
    { eapply weights_words; [exact Hws|]. destruct Ha as [[] _ _]. unfold is_int in *. lia. }
    destruct (load_saved_ta classic_codec bitwise_codec S2 S1 "regressor" (reg_reset_steps S2) e0 e JsonOutOfRange) as (j & Ej & El); [|exact Hg|exact Hf|].
    { exists jt. split; [|exact Eb]. revert Et. clear. destruct e as [? [] ? ? ?]. exact id. }
    exists j. eexists. split; [exact Ej|]. split; [exact El|]. split; [done|]. split; [done|]. intros os' Ho.
    eapply orel_mono; [apply (reg_reads_same S2 BW os' e0); [exact Ho|exact (conj eq_refl (conj eq_refl eq_refl))]|]. by intros ? ? [].
  Qed.
End Kind.
