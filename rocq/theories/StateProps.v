(** * Saving and loading estimators: fitted ones come back equal and continue identically; unfitted ones do not come back. *)
From Verif Require Import FloatFacts.
From Verif Require Export StateParams.
From stdpp Require Import list.
Local Open Scope Z_scope.

(** equal automata, weights, polarity, generators and parameters *)
Definition equal_state {P SS1 SS2 G F} (e1 : est P SS1 G F) (e2 : est P SS2 G F) : Prop :=
  e_params e2 = e_params e1 /\ e_ta e2 = e_ta e1 /\ e_igen e2 = e_igen e1 /\ e_fgen e2 = e_fgen e1.
Lemma equal_same {P SS1 SS2 G F} (e1 : est P SS1 G F) (e2 : est P SS2 G F) : equal_state e1 e2 -> same_estimator e1 e2.
Proof. intros (E & H). split; [|done]. rewrite E. apply same_but_jobs_refl. Qed.

(** equal results, and equal estimators afterwards *)
Definition same_results {RES P SS1 SS2 G F} (r1 : RES * est P SS1 G F) (r2 : RES * est P SS2 G F) : Prop :=
  r2.1 = r1.1 /\ equal_state r1.2 r2.2.

(** ** The float generator of a regressor is set by fit and never used *)
Section FGen.
  Context {R : rnd} (g_ok : eG R -> Prop) (f_ok : eF R -> Prop) (HR : rnd_ok R g_ok f_ok) (S : sch) (A : algo R).
  Notation est := (est (a_pol A) (eS S) (eG R) (eF R)).
  Ltac step H := repeat first [ apply obind_ret_inv in H as (? & _ & H) | destruct (decide _) in H; [injection H as _ <-; done|]].
  Lemma reg_online_fgen (e e' : est) X y ep st : reg_fit_online S A e X y ep = Ret (st, e') -> e_fgen e' = e_fgen e.
  Proof using.
    unfold reg_fit_online. intros H. repeat apply obind_ret_inv in H as (? & _ & H). destruct x12 as [[g s] c]. by injection H as _ <-.
  Qed.
  Lemma reg_initialize_fgen (e e' : est) : reg_initialize S A e = Ret e' -> f_ok (e_fgen e').
  Proof using g_ok HR.
    unfold reg_initialize, initialize_state. intros H. repeat (apply obind_ret_inv in H as (? & _ & H)).
    repeat match goal with x : prod _ _ |- _ => destruct x end. repeat (apply obind_ret_inv in H as (? & _ & H)).
    injection H as <-. cbn [e_fgen]. apply (f_init_ok R g_ok f_ok HR).
  Qed.
  Lemma reg_fit_fgen (e e' : est) X y ep st : f_ok (e_fgen e) -> reg_fit S A e X y ep = Ret (st, e') -> f_ok (e_fgen e').
  Proof using g_ok HR.
    unfold reg_fit. intros Hf H. apply obind_ret_inv in H as (? & _ & H). case_decide; [by injection H as _ <-|].
    apply obind_ret_inv in H as (? & _ & H). case_decide; [by injection H as _ <-|].
    do 2 apply obind_ret_inv in H as (? & _ & H). apply obind_ret_inv in H as (e1 & E1 & H).
    apply reg_online_fgen in H. rewrite H. by eapply reg_initialize_fgen.
  Qed.
  Lemma reg_step_fgen (e e' : est) o r : f_ok (e_fgen e) -> reg_step S A e o = Ret (r, e') -> f_ok (e_fgen e').
  Proof using g_ok HR.
    intros Hf. destruct o as [X y ep|X y ep|x|X]; cbn [reg_step]; intros H; apply obind_ret_inv in H as ([q e1] & E & H); injection H as _ <-.
    - by eapply reg_fit_fgen.
    - unfold reg_partial_fit in E. destruct (is_fitted A (e_ta e)); [|by eapply reg_fit_fgen].
      unfold reg_fit_online_checked in E. apply obind_ret_inv in E as (? & _ & E). case_decide; [by injection E as _ <-|].
      do 2 apply obind_ret_inv in E as (? & _ & E). case_decide; [by injection E as _ <-|].
      apply obind_ret_inv in E as (? & _ & E). case_decide; [by injection E as _ <-|]. apply reg_online_fgen in E. by rewrite E.
    - unfold reg_predict1 in E. apply obind_ret_inv in E as (? & _ & E). case_decide; [by injection E as _ <-|].
      repeat apply obind_ret_inv in E as (? & _ & E). by injection E as _ <-.
    - unfold reg_predict in E. apply obind_ret_inv in E as (? & _ & E). case_decide; [by injection E as _ <-|].
      do 4 apply obind_ret_inv in E as (? & _ & E). apply obind_ret_inv in E as ([rv c] & _ & E). by injection E as _ <-.
  Qed.
  Lemma reg_history_fgen (vw : aview A) p os rs (e : est) : reg_history S A vw p os rs e -> f_ok (e_fgen e).
  Proof using g_ok HR.
    intros [_ H]. revert rs e H. induction os as [|o os IH] using rev_ind; intros rs e H.
    - injection H as _ <-. apply (f_init_ok R g_ok f_ok HR).
    - rewrite reg_run_snoc in H. apply obind_ret_inv in H as ([rs1 e1] & E1 & H). apply obind_ret_inv in H as ([r e2] & E2 & H).
      injection H as _ <-. eapply reg_step_fgen; [|exact E2]. by eapply IH.
  Qed.
End FGen.

Lemma insert_storable p k z : is_int z -> k <> "random_state"%string -> storable_params p -> storable_params (<[k := PInt z]> p).
Proof.
  intros Hz Hk Hp k' v. destruct (decide (k = k')) as [->|]; [rewrite lookup_insert; intros [= <-]; done|]. rewrite lookup_insert_ne by done. apply Hp.
Qed.
Lemma insert_finite p k z : finite_reals p -> finite_reals (<[k := PInt z]> p).
Proof. intros Hp k' v. destruct (decide (k = k')) as [->|]; [by rewrite lookup_insert|]. rewrite lookup_insert_ne by done. apply Hp. Qed.
Lemma clf_fit_storable L nf p : Z.of_nat L <= int_max -> Z.of_nat nf <= int_max -> storable_params p ->
  storable_params (clf_fit_params L nf p) /\ (finite_reals p -> finite_reals (clf_fit_params L nf p)).
Proof.
  intros HL Hn Hp. unfold clf_fit_params. split; [|intros; by repeat apply insert_finite].
  repeat apply insert_storable; try done; unfold is_int, int_min; lia.
Qed.
Lemma reg_fit_storable nf p : Z.of_nat nf <= int_max -> storable_params p ->
  storable_params (reg_fit_params nf p) /\ (finite_reals p -> finite_reals (reg_fit_params nf p)).
Proof.
  intros Hn Hp. unfold reg_fit_params. split; [|intros; by repeat apply insert_finite].
  repeat apply insert_storable; try done; unfold is_int, int_min; lia.
Qed.

Section Saved.
  Context (sh : irng -> nat -> list nat * irng) (l : bool) (fuel : nat) (b1 b2 : Z -> float32) (Hsh : shuffle_ok sh).
  Let R := mt_rnd sh l fuel b1 b2.
  Let HR : rnd_ok R irng_ok frng_ok := mt_rnd_ok sh l fuel b1 b2 Hsh.
  Context (A : algo R) (vw : aview A) (C : pol_codec (a_pol A)) (HC : tsetlini_codec R A vw C).
  Notation estS S := (est (a_pol A) (eS S) (eG R) (eF R)).

  Lemma codec_laws w N : (w = 8 \/ w = 16 \/ w = 32) -> 1 <= N <= 2 ^ (w - 1) ->
    exists I E1n E1p E2, (forall U V, laws (R := R) A irng_ok vw U V w N I E1n E1p E2) /\
      forall n nf m p ws, I n nf m p -> (0 < n)%nat -> Z.of_nat (2 * n) <= int_max -> Forall (fun w => 0 <= w < 4294967296) ws ->
        Z.of_nat nf <= int_max /\ ta_restored C (TA m ws p).
  Proof.
    intros Hw HN. destruct HC.
    - exists (cl_inv R w N), (cl_E1n R N), (cl_E1p R N), (cl_E2 R). split.
      + intros U V. by apply (classic_laws R irng_ok frng_ok HR).
      + intros n nf m p ws HI Hn _ Hws. by eapply classic_restored.
    - exists (bw_struct R w), (bw_E1n R N), (bw_E1p R N), (bw_E2_any R). split.
      + intros U V. by apply (bitwise_laws_struct R irng_ok frng_ok HR).
      + intros n nf m p ws HI Hn Hn2 Hws. by eapply bitwise_restored.
  Qed.

  (** what from_json makes of what to_json wrote *)
  Lemma est_back kind S1 S2 reset (e : est (a_pol A) (eS S1) irng frng) (e0 : est (a_pol A) (eS S2) irng frng) c : ta_restored C (e_ta e) -> irng_ok (e_igen e) -> frng_ok (e_fgen e) ->
    storable_params (e_params e) -> reset (kept_params (e_params e)) (e_cache e0) = Ret c ->
    exists j, to_json C S1 kind e = Ret j /\ from_json C S2 reset e0 (reparse j) = Ret (Est (kept_params (e_params e)) (e_ta e) c (e_igen e) (e_fgen e)).
  Proof.
    intros (jt & Et & Eb) Hg Hf Hp Hc. unfold to_json, from_json. rewrite Et. cbn [obind]. eexists. split; [reflexivity|].
    rewrite (at_reparse _ _ (irng_to_json (e_igen e))) by reflexivity. cbn [obind]. rewrite irng_back by exact Hg. cbn [obind].
    rewrite (at_reparse _ _ (frng_to_json (e_fgen e))) by reflexivity. cbn [obind]. rewrite frng_back by exact Hf. cbn [obind].
    rewrite (at_reparse _ _ jt) by reflexivity. cbn [obind]. rewrite Eb. cbn [obind].
    rewrite (at_reparse _ _ (params_to_json (e_params e))) by reflexivity. cbn [obind].
    destruct (params_back _ Hp) as (q & -> & Er). cbn [obind]. rewrite Er. rewrite Hc. cbn [obind].
    rewrite (assign_id _ _ (proj1 Hg)), (assign_id _ _ (proj1 Hf)). reflexivity.
  Qed.

  Lemma weights_words weighted maxw n ws : weights_ok weighted maxw n ws -> maxw <= int_max -> Forall (fun w => 0 <= w < 4294967296) ws.
  Proof.
    unfold weights_ok, int_max. intros H Hm. destruct weighted; [|subst; constructor]. destruct H as [_ H].
    eapply Forall_impl; [exact H|]. cbn. lia.
  Qed.

  (** *** Classifier *)
  Lemma clf_loaded S1 S2 (HS1 : sch_ok S1) a p os rs (e : estS S1) (e0 : estS S2) L nf :
    clf_created a p -> storable_params p -> finite_reals p -> clf_history S1 A vw p os rs e -> clf_dims_of os rs = Some (L, nf) ->
    exists j e', clf_to_json C S1 e = Ret j /\ clf_from_json C S2 e0 (reparse j) = Ret e' /\ equal_state e e' /\
      exists I E1n E1p E2, (forall U V, laws (R := R) A irng_ok vw U V (width_of (ca_counting a) (ca_states a)) (ca_states a) I E1n E1p E2) /\
        clf_at (R := R) irng_ok frng_ok S2 A True True I a p (Some (L, nf)) e'.
  Proof.
    intros Hc Hst Hfin Hh Hd. pose proof (cc_valid _ _ Hc) as Ha.
    destruct (wide_enough (ca_counting a) (ca_states a)) as [H1 H2].
    { destruct Ha as [_ [] _]. done. } { destruct Ha as [[] [] _]. unfold is_int in *. lia. }
    destruct (codec_laws _ _ H1 H2) as (I & E1n & E1p & E2 & Lw & Hback).
    pose proof (clf_history_at (R := R) irng_ok frng_ok HR S1 HS1 A vw _ _ I E1n E1p E2 Lw a p os rs e Hc eq_refl eq_refl Hh) as At.
    rewrite Hd in At. destruct At as [(_ & Hdim & Hcore) Ep].
    assert (forall q, clf_dims a L nf q -> exists n, P_clf_outputs q = Ret (Z.of_nat n) /\ n = (L * clf_opl a)%nat) as Hout.
    { intros q Hq. eexists. split; [|done]. by apply (P_outputs a L nf Ha). }
    destruct (clf_n_bound a L nf Ha _ Hdim) as [Hn Hn0].
    destruct (clf_opl_facts a Ha) as (Ecl & _).
    assert (Z.of_nat (2 * (L * clf_opl a)) <= int_max) as Hn2 by (pose proof (cd_n _ _ _ _ Hdim); nia).
    destruct Hcore as [Hauto Hws Hlens Hct (ct0 & Ect & Hrate) Hg Hf]. cbn [fst snd] in *.
    destruct (Hback _ _ _ _ (ta_weights (e_ta e)) Hauto Hn0 Hn2) as [Hnf Hta].
    { eapply weights_words; [exact Hws|]. destruct Ha as [[] _ _]. unfold is_int in *. lia. }
    assert (Z.of_nat L <= int_max) as HL.
    { assert (L <= L * clf_opl a)%nat; [|lia]. clear -Hn0. destruct (clf_opl a); nia. }
    destruct (clf_fit_storable L nf p) as [Hst' Hfin']; [done|done|done|]. rewrite <- Ep in Hst', Hfin'.
    assert (clf_cache_reset S2 (e_params e) (e_cache e0) =
      Ret (Cache (replicate (L * clf_opl a) 0) (replicate (L * clf_opl a) 0) (replicate L 0) ct0 (ca_sched (e_cache e0)))) as Ereset.
    { unfold clf_cache_reset. rewrite (P_outputs a L nf Ha _ Hdim), (cd_labels _ _ _ _ Hdim), (ch_s _ _ (cd_has _ _ _ _ Hdim)), (cd_features _ _ _ _ Hdim).
      cbn [obind]. rewrite Ect. cbn [obind]. by rewrite !Nat2Z.id. }
    edestruct (est_back "classifier" S1 S2 (clf_cache_reset S2) e e0) as (j & Ej & Eb); [|exact Hg|exact Hf|exact Hst'|exact (eq_trans (f_equal (fun q => clf_cache_reset S2 q (e_cache e0)) (kept_finite _ (Hfin' Hfin))) Ereset)|].
    { revert Hta. clear. destruct e as [? [] ? ? ?]. exact id. }
    exists j. eexists. split; [exact Ej|]. split; [exact (eq_trans Eb (f_equal (fun q => Ret (Est q _ _ _ _)) (kept_finite _ (Hfin' Hfin))))|]. split; [done|].
    exists I, E1n, E1p, E2. split; [done|]. split; [|exact Ep]. split; [done|]. split; [done|].
    pose proof (ct_good_true (R := R) irng_ok (ca_s a) nf) as Hgood. unfold ct_good in Hgood. rewrite Ect in Hgood.
    constructor; cbn [fst snd e_ta e_cache e_igen e_fgen ca_ct]; try done.
    - unfold lens. cbn [ca_fb ca_out ca_sum]. by rewrite !replicate_length.
    - by exists ct0.
  Qed.

  Theorem clf_saved S1 S2 a p os rs (e : estS S1) (e0 : estS S2) L nf : sch_ok S1 -> sch_ok S2 ->
    clf_created a p -> storable_params p -> finite_reals p -> clf_history S1 A vw p os rs e -> clf_dims_of os rs = Some (L, nf) ->
    exists j e', clf_to_json C S1 e = Ret j /\ clf_from_json C S2 e0 (reparse j) = Ret e' /\ equal_state e e' /\
      forall more, Forall (clf_op_phys A vw) more -> evaluates_ok S1 A vw (Some (L, nf)) e more ->
        orel same_results (clf_run S1 A e more) (clf_run S2 A e' more).
  Proof.
    intros HS1 HS2 Hc Hst Hfin Hh Hd. destruct (clf_loaded S1 S2 HS1 a p os rs e e0 L nf Hc Hst Hfin Hh Hd) as (j & e' & Ej & El & Heq & I & E1n & E1p & E2 & Lw & At2).
    exists j, e'. split; [done|]. split; [done|]. split; [done|]. intros more Hph Hev.
    pose proof (clf_history_at (R := R) irng_ok frng_ok HR S1 HS1 A vw _ _ I E1n E1p E2 Lw a p os rs e Hc eq_refl eq_refl Hh) as At1. rewrite Hd in At1.
    edestruct (clf_esim_of_same (R := R) irng_ok frng_ok A S1 S2 0) as [_ Hes]; [exact Hc|exact Hc|exact At1|exact At2|exact (equal_same _ _ Heq)|].
    eapply orel_mono; [eapply (clf_run_sim (R := R) irng_ok frng_ok HR S1 HS1 S2 HS2 A vw _ _ I E1n E1p E2 Lw a a p p); try done|].
    intros [r1 f1] [r2 f2] ((E & H) & Q1 & Q2). split; [done|]. apply esim_same in H as (_ & H). split; [|exact H].
    destruct (clf_dims_from _ _ _) as [[L' nf']|]; [by rewrite (proj2 Q1), (proj2 Q2)|]. cbn in Q1, Q2. by rewrite Q1, Q2.
  Qed.

  (** *** Regressor *)
  Lemma reg_loaded S1 S2 (HS1 : sch_ok S1) a p os rs (e : estS S1) (e0 : estS S2) nf :
    reg_created a p -> storable_params p -> finite_reals p -> reg_history S1 A vw p os rs e -> reg_dims_of os rs = Some nf ->
    exists j e', reg_to_json C S1 e = Ret j /\ reg_from_json C S2 e0 (reparse j) = Ret e' /\ equal_state e e' /\
      exists I E1n E1p E2, (forall U V, laws (R := R) A irng_ok vw U V (width_of (ra_counting a) (ra_states a)) (ra_states a) I E1n E1p E2) /\
        reg_at (R := R) irng_ok S2 A True True I a p (Some nf) e'.
  Proof.
    intros Hc Hst Hfin Hh Hd. pose proof (rc_valid _ _ Hc) as Ha.
    destruct (wide_enough (ra_counting a) (ra_states a)) as [H1 H2].
    { destruct Ha as [_ [] _]. done. } { destruct Ha as [[] [] _]. unfold is_int in *. lia. }
    destruct (codec_laws _ _ H1 H2) as (I & E1n & E1p & E2 & Lw & Hback).
    pose proof (reg_history_at (R := R) irng_ok frng_ok HR S1 HS1 A vw _ _ I E1n E1p E2 Lw a p os rs e Hc eq_refl eq_refl Hh) as At.
    pose proof (reg_history_fgen (R := R) irng_ok frng_ok HR S1 A vw p os rs e Hh) as Hf.
    rewrite Hd in At. destruct At as [(_ & Hdim & Hcore) Ep].
    destruct (reg_n_facts a Ha) as (Ecl & _ & Hn0).
    assert (Z.of_nat (2 * reg_n a) <= int_max) as Hn2 by (destruct Ha as [[] _ _]; unfold is_int in *; lia).
    destruct Hcore as [Hauto Hws Hlens Hct (ct0 & Ect & Hrate) Hg]. cbn [fst snd] in *.
    destruct (Hback _ _ _ _ (ta_weights (e_ta e)) Hauto ltac:(lia) Hn2) as [Hnf Hta].
    { eapply weights_words; [exact Hws|]. destruct Ha as [[] _ _]. unfold is_int in *. lia. }
    destruct (reg_fit_storable nf p) as [Hst' Hfin']; [done|done|]. rewrite <- Ep in Hst', Hfin'.
    assert (reg_cache_reset S2 (e_params e) (e_cache e0) = Ret (Cache [] (replicate (reg_n a) 0) [] ct0 (ca_sched (e_cache e0)))) as Ereset.
    { unfold reg_cache_reset. rewrite (P_reg_n a Ha _ (rd_has _ _ _ Hdim)), (rh_s _ _ (rd_has _ _ _ Hdim)), (rd_features _ _ _ Hdim).
      cbn [obind]. rewrite Ect. cbn [obind]. by rewrite !Nat2Z.id. }
    edestruct (est_back "regressor" S1 S2 (reg_cache_reset S2) e e0) as (j & Ej & Eb); [|exact Hg|exact Hf|exact Hst'|exact (eq_trans (f_equal (fun q => reg_cache_reset S2 q (e_cache e0)) (kept_finite _ (Hfin' Hfin))) Ereset)|].
    { revert Hta. clear. destruct e as [? [] ? ? ?]. exact id. }
    exists j. eexists. split; [exact Ej|]. split; [exact (eq_trans Eb (f_equal (fun q => Ret (Est q _ _ _ _)) (kept_finite _ (Hfin' Hfin))))|]. split; [done|].
    exists I, E1n, E1p, E2. split; [done|]. split; [|exact Ep]. split; [done|]. split; [done|].
    pose proof (ct_good_true (R := R) irng_ok (ra_s a) nf) as Hgood. unfold ct_good in Hgood. rewrite Ect in Hgood.
    constructor; cbn [fst snd e_ta e_cache e_igen e_fgen ca_ct]; try done.
    - cbn [ca_fb ca_out ca_sum]. by rewrite !replicate_length.
    - by exists ct0.
  Qed.
  Theorem reg_saved S1 S2 a p os rs (e : estS S1) (e0 : estS S2) nf : sch_ok S1 -> sch_ok S2 ->
    reg_created a p -> storable_params p -> finite_reals p -> reg_history S1 A vw p os rs e -> reg_dims_of os rs = Some nf ->
    exists j e', reg_to_json C S1 e = Ret j /\ reg_from_json C S2 e0 (reparse j) = Ret e' /\ equal_state e e' /\
      forall more, Forall (reg_op_phys A vw) more -> orel same_results (reg_run S1 A e more) (reg_run S2 A e' more).
  Proof.
    intros HS1 HS2 Hc Hst Hfin Hh Hd. destruct (reg_loaded S1 S2 HS1 a p os rs e e0 nf Hc Hst Hfin Hh Hd) as (j & e' & Ej & El & Heq & I & E1n & E1p & E2 & Lw & At2).
    exists j, e'. split; [done|]. split; [done|]. split; [done|]. intros more Hph.
    pose proof (reg_history_at (R := R) irng_ok frng_ok HR S1 HS1 A vw _ _ I E1n E1p E2 Lw a p os rs e Hc eq_refl eq_refl Hh) as At1. rewrite Hd in At1.
    destruct (reg_esim_of_same (R := R) irng_ok A vw S1 S2 _ _ I E1n E1p E2 Lw a a p p _ _ e e' Hc Hc At1 At2 (equal_same _ _ Heq)) as [_ Hes].
    eapply orel_mono; [eapply (reg_run_sim (R := R) irng_ok frng_ok HR S1 HS1 S2 HS2 A vw _ _ I E1n E1p E2 Lw a a p p); try done|].
    intros [r1 f1] [r2 f2] ((E & H) & Q1 & Q2). split; [done|]. apply esim_same in H as (_ & H). split; [|exact H].
    destruct (reg_dims_from _ _ _) as [nf'|]; [by rewrite (proj2 Q1), (proj2 Q2)|]. cbn in Q1, Q2. by rewrite Q1, Q2.
  Qed.

  (** *** A regressor with a coefficient that is not finite *)
  Theorem reg_saved_infinite S1 S2 a p os rs (e : estS S1) (e0 : estS S2) nf x : sch_ok S1 ->
    reg_created a p -> storable_params p -> p !! "loss_fn_C1"%string = Some (PReal x) -> is_finite_sf x = false ->
    reg_history S1 A vw p os rs e -> reg_dims_of os rs = Some nf ->
    exists j e', reg_to_json C S1 e = Ret j /\ reg_from_json C S2 e0 (reparse j) = Ret e' /\ e_ta e' = e_ta e /\
      e_params e' !! "loss_fn_C1"%string = Some PNone /\
      forall X y ep e1, reg_partial_fit S1 A e X y ep = Ret (S_OK, e1) -> reg_partial_fit S2 A e' X y ep = Throw BadVariant.
  Proof.
    intros HS1 Hc Hst EC Hinf Hh Hd. pose proof (rc_valid _ _ Hc) as Ha.
    destruct (wide_enough (ra_counting a) (ra_states a)) as [H1 H2].
    { destruct Ha as [_ [] _]. done. } { destruct Ha as [[] [] _]. unfold is_int in *. lia. }
    destruct (codec_laws _ _ H1 H2) as (I & E1n & E1p & E2 & Lw & Hback).
    pose proof (reg_history_at (R := R) irng_ok frng_ok HR S1 HS1 A vw _ _ I E1n E1p E2 Lw a p os rs e Hc eq_refl eq_refl Hh) as At.
    pose proof (reg_history_fgen (R := R) irng_ok frng_ok HR S1 A vw p os rs e Hh) as Hf.
    rewrite Hd in At. destruct At as [Hfit Ep].
    pose proof (reg_fitted_true (R := R) irng_ok S1 A vw True True _ _ I E1n E1p E2 (Lw True True) a Ha e nf Hfit) as Hfitted.
    destruct Hfit as (_ & Hdim & Hcore).
    destruct (reg_n_facts a Ha) as (Ecl & _ & Hn0).
    assert (Z.of_nat (2 * reg_n a) <= int_max) as Hn2 by (destruct Ha as [[] _ _]; unfold is_int in *; lia).
    destruct Hcore as [Hauto Hws Hlens Hct (ct0 & Ect & Hrate) Hg]. cbn [fst snd] in *.
    destruct (Hback _ _ _ _ (ta_weights (e_ta e)) Hauto ltac:(lia) Hn2) as [Hnf Hta].
    { eapply weights_words; [exact Hws|]. destruct Ha as [[] _ _]. unfold is_int in *. lia. }
    destruct (reg_fit_storable nf p) as [Hst' _]; [done|done|]. rewrite <- Ep in Hst'.
    pose proof (rd_has _ _ _ Hdim) as Hhas.
    assert (P_s (kept_params (e_params e)) = Ret (ra_s a)) as Eks.
    { pose proof (rh_s _ _ Hhas) as Es. unfold P_s in *. rewrite (kept_real _ _ _ Es).
      destruct Ha as [_ [] _]. unfold s_valid in rv_s. apply andb_true_iff in rv_s as [-> _]. done. }
    assert (P_reg_outputs (kept_params (e_params e)) = P_reg_outputs (e_params e)) as Ekn.
    { unfold P_reg_outputs, P_reg_clauses. by rewrite kept_int. }
    assert (reg_cache_reset S2 (kept_params (e_params e)) (e_cache e0) = Ret (Cache [] (replicate (reg_n a) 0) [] ct0 (ca_sched (e_cache e0)))) as Ereset.
    { unfold reg_cache_reset. rewrite Ekn, Eks. unfold P_number_of_features. rewrite kept_int.
      rewrite (P_reg_n a Ha _ Hhas). pose proof (rd_features _ _ _ Hdim) as Ef. unfold P_number_of_features in Ef. rewrite Ef.
      cbn [obind]. rewrite Ect. cbn [obind]. by rewrite !Nat2Z.id. }
    edestruct (est_back "regressor" S1 S2 (reg_cache_reset S2) e e0) as (j & Ej & Eb); [|exact Hg|exact Hf|exact Hst'|exact Ereset|].
    { revert Hta. clear. destruct e as [? [] ? ? ?]. exact id. }
    exists j. eexists. split; [exact Ej|]. split; [exact Eb|]. split; [done|].
    clear Hh Ej Eb Ereset. destruct e as [q ta c g f]. cbn [e_params e_ta e_cache e_igen e_fgen] in *.
    assert (q !! "loss_fn_C1"%string = Some (PReal x)) as EC'.
    { rewrite Ep. unfold reg_fit_params. rewrite lookup_insert_ne by done. exact EC. }
    split; [rewrite kept_lookup, EC'; cbn; by rewrite Hinf|].
    intros X y ep e1. unfold reg_partial_fit. cbn [e_ta]. rewrite Hfitted.
    unfold reg_fit_online_checked. cbn [e_params]. intros H. apply obind_ret_inv in H as (st & -> & H). cbn [obind]. case_decide as Hst9; [exfalso; injection H as Hs9 _; by apply Hst9|clear Hst9].
    apply obind_ret_inv in H as (z & E0 & H). unfold P_number_of_features in *. rewrite kept_int, E0. cbn [obind].
    apply obind_ret_inv in H as (st2 & -> & H). cbn [obind]. case_decide as Hst9; [exfalso; injection H as Hs9 _; by apply Hst9|clear Hst9].
    apply obind_ret_inv in H as (T & ET & H). unfold P_threshold in *. rewrite kept_int, ET. cbn [obind]. case_decide as Hst9; [exfalso; injection H as Hs9 _; by apply Hst9|clear Hst9].
    unfold reg_fit_online. cbn [e_params]. rewrite Ekn, Eks, (P_reg_n a Ha _ Hhas). cbn [obind].
    destruct Hhas. unfold P_threshold, P_max_weight, P_number_of_states, P_boost, P_tile, P_n_jobs, P_verbose, P_loss_fn, P_loss_C1 in *.
    apply obind_ret_inv in rh_boost as (zb & Ezb & _).
    rewrite !kept_int, !kept_bool, !kept_str, rh_threshold, rh_maxw, rh_states, Ezb, rh_tile, rh_njobs, rh_verbose, rh_loss. cbn [obind].
    rewrite (kept_real _ _ _ rh_C1). apply at_real_inv in rh_C1. rewrite EC' in rh_C1. injection rh_C1 as <-. rewrite Hinf. done.
  Qed.

  (** *** An estimator that was not fitted *)
  Lemma ta0_lost : exists j, ta_to_json C (ta0 A) = Ret j /\ ta_from_json C (reparse j) = UB OutOfBounds.
  Proof. destruct HC; eexists; (split; [reflexivity|reflexivity]). Qed.
  Lemma construct_lost kind S1 S2 reset p (e0 : est (a_pol A) (eS S2) irng frng) :
    exists j, to_json C S1 kind (construct S1 A p) = Ret j /\ from_json C S2 reset e0 (reparse j) = UB OutOfBounds.
  Proof.
    destruct ta0_lost as (jt & Et & Eb). unfold to_json, from_json. change (e_ta (construct S1 A p)) with (ta0 A). rewrite Et. cbn [obind].
    eexists. split; [reflexivity|].
    change (e_igen (construct S1 A p)) with (g_init R 1). change (e_fgen (construct S1 A p)) with (f_init R 1).
    rewrite (at_reparse _ _ (irng_to_json (g_init R 1))) by reflexivity. cbn [obind].
    rewrite irng_back by apply (g_init_ok R irng_ok frng_ok HR). cbn [obind].
    rewrite (at_reparse _ _ (frng_to_json (f_init R 1))) by reflexivity. cbn [obind].
    rewrite frng_back by apply (f_init_ok R irng_ok frng_ok HR). cbn [obind].
    rewrite (at_reparse _ _ jt) by reflexivity. cbn [obind]. rewrite Eb. done.
  Qed.
  Lemma codec_hist_laws w N : (w = 8 \/ w = 16 \/ w = 32) -> 1 <= N <= 2 ^ (w - 1) ->
    exists I E1n E1p E2, forall U V, laws (R := R) A irng_ok vw U V w N I E1n E1p E2.
  Proof. intros H1 H2. destruct (codec_laws w N H1 H2) as (I & E1n & E1p & E2 & H & _). by exists I, E1n, E1p, E2. Qed.
  Theorem clf_unfitted_lost S1 S2 a p os rs (e : estS S1) (e0 : estS S2) : sch_ok S1 ->
    clf_created a p -> clf_history S1 A vw p os rs e -> clf_dims_of os rs = None ->
    exists j, clf_to_json C S1 e = Ret j /\ clf_from_json C S2 e0 (reparse j) = UB OutOfBounds.
  Proof.
    intros HS1 Hc Hh Hd. pose proof (cc_valid _ _ Hc) as Ha. destruct (wide_enough (ca_counting a) (ca_states a)) as [H1 H2].
    { destruct Ha as [_ [] _]. done. } { destruct Ha as [[] [] _]. unfold is_int in *. lia. }
    destruct (codec_hist_laws _ _ H1 H2) as (I & E1n & E1p & E2 & Lw).
    pose proof (clf_history_at (R := R) irng_ok frng_ok HR S1 HS1 A vw _ _ I E1n E1p E2 Lw a p os rs e Hc eq_refl eq_refl Hh) as At.
    rewrite Hd in At. cbn in At. subst e. exact (construct_lost _ S1 S2 _ p e0).
  Qed.
  Theorem reg_unfitted_lost S1 S2 a p os rs (e : estS S1) (e0 : estS S2) : sch_ok S1 ->
    reg_created a p -> reg_history S1 A vw p os rs e -> reg_dims_of os rs = None ->
    exists j, reg_to_json C S1 e = Ret j /\ reg_from_json C S2 e0 (reparse j) = UB OutOfBounds.
  Proof.
    intros HS1 Hc Hh Hd. pose proof (rc_valid _ _ Hc) as Ha. destruct (wide_enough (ra_counting a) (ra_states a)) as [H1 H2].
    { destruct Ha as [_ [] _]. done. } { destruct Ha as [[] [] _]. unfold is_int in *. lia. }
    destruct (codec_hist_laws _ _ H1 H2) as (I & E1n & E1p & E2 & Lw).
    pose proof (reg_history_at (R := R) irng_ok frng_ok HR S1 HS1 A vw _ _ I E1n E1p E2 Lw a p os rs e Hc eq_refl eq_refl Hh) as At.
    rewrite Hd in At. cbn in At. subst e. exact (construct_lost _ S1 S2 _ p e0).
  Qed.
End Saved.
