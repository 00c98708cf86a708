(** * Equal estimators stay equal and answer equally; saved and loaded ones compare equal. *)
From Verif Require Import FloatFacts.
From Verif Require Export EqualityFacts StateProps.
From stdpp Require Import list.
Local Open Scope Z_scope.

(** ** Calls change the numbers of labels and features among the parameters, at most *)
Definition label_key : string := "number_of_labels".
Definition feature_key : string := "number_of_features".
Definition par_kept (p q : params) : Prop :=
  (forall k, k <> label_key -> k <> feature_key -> q !! k = p !! k) /\ (forall k v, q !! k = Some v -> p !! k = Some v \/ exists z, v = PInt z).
Lemma par_refl p : par_kept p p.
Proof. split; auto. Qed.
Lemma par_trans p q r : par_kept p q -> par_kept q r -> par_kept p r.
Proof.
  intros [H1 H2] [J1 J2]. split.
  - intros k Hl Hf. by rewrite J1, H1.
  - intros k v E. destruct (J2 k v E) as [?|?]; [by apply H2|by right].
Qed.
Lemma par_insert p k z : k = label_key \/ k = feature_key -> par_kept p (<[k := PInt z]> p).
Proof.
  intros Hk. split.
  - intros k' Hl Hf. apply lookup_insert_ne. by destruct Hk as [->| ->].
  - intros k' v E. destruct (decide (k = k')) as [->|Hne].
    + rewrite lookup_insert in E. injection E as <-. eauto.
    + rewrite lookup_insert_ne in E by done. auto.
Qed.
Lemma par_s p q : par_kept p q -> s_nonzero p -> s_nonzero q.
Proof. intros [H _] Hs b. rewrite H by done. apply Hs. Qed.
Lemma par_nan p q : par_kept p q -> map_Forall (fun _ v => not_nan v) p -> map_Forall (fun _ v => not_nan v) q.
Proof. intros [_ H] Hp k v E. destruct (H k v E) as [?|[z ->]]; [by eapply Hp|done]. Qed.

Section Kept.
  Context {R : rnd} (S : sch) (A : algo R).
  Notation est := (est (a_pol A) (eS S) (eG R) (eF R)).
  Ltac split_pairs := repeat match goal with x : prod _ _ |- _ => destruct x end.
  Ltac step H := repeat first [apply obind_ret_inv in H as (? & _ & H) | progress cbv zeta in H
    | destruct (decide _) in H; [injection H as _ <-; apply par_refl|]].
  Ltac same H := unfold clf_predict1, clf_predict, clf_decision1, clf_decision, clf_evaluate, reg_predict1, reg_predict, clf_fit_online, reg_fit_online in H;
    step H; split_pairs; injection H as _ <-; apply par_refl.
  Lemma online_kept (e e' : est) X y ep st : clf_fit_online S A e X y ep = Ret (st, e') -> par_kept (e_params e) (e_params e').
  Proof using. intros H. same H. Qed.
  Lemma ronline_kept (e e' : est) X y ep st : reg_fit_online S A e X y ep = Ret (st, e') -> par_kept (e_params e) (e_params e').
  Proof using. intros H. same H. Qed.
  Lemma fit_kept (e e' : est) X y ml ep st : clf_fit S A e X y ml ep = Ret (st, e') -> par_kept (e_params e) (e_params e').
  Proof using.
    unfold clf_fit. intros H. apply obind_ret_inv in H as (? & _ & H). destruct (decide _) in H; [injection H as _ <-; apply par_refl|].
    do 2 apply obind_ret_inv in H as (? & _ & H). cbv zeta in H. apply obind_ret_inv in H as (? & _ & H). destruct (decide _) in H; [injection H as _ <-; apply par_refl|].
    do 2 apply obind_ret_inv in H as (? & _ & H). apply obind_ret_inv in H as (e1 & E1 & H). apply init_params in E1. apply online_kept in H. rewrite E1 in H.
    eapply par_trans; [|exact H]. cbn [e_params with_params]. eapply par_trans; apply par_insert; auto.
  Qed.
  Lemma rfit_kept (e e' : est) X y ep st : reg_fit S A e X y ep = Ret (st, e') -> par_kept (e_params e) (e_params e').
  Proof using.
    unfold reg_fit. intros H. apply obind_ret_inv in H as (? & _ & H). destruct (decide _) in H; [injection H as _ <-; apply par_refl|].
    apply obind_ret_inv in H as (? & _ & H). cbv zeta in H. destruct (decide _) in H; [injection H as _ <-; apply par_refl|].
    do 2 apply obind_ret_inv in H as (? & _ & H). apply obind_ret_inv in H as (e1 & E1 & H). apply init_params in E1. apply ronline_kept in H. rewrite E1 in H.
    eapply par_trans; [|exact H]. cbn [e_params with_params]. apply par_insert; auto.
  Qed.
  Lemma step_kept (e e' : est) o r : clf_step S A e o = Ret (r, e') -> par_kept (e_params e) (e_params e').
  Proof using.
    destruct o; cbn [clf_step]; intros H; apply obind_ret_inv in H as ([q e1] & E & H); injection H as _ <-.
    - by eapply fit_kept.
    - unfold clf_partial_fit in E. destruct (is_fitted _ _); [|by eapply fit_kept]. unfold clf_fit_online_checked in E.
      apply obind_ret_inv in E as (? & _ & E). destruct (decide _) in E; [injection E as _ <-; apply par_refl|].
      do 2 apply obind_ret_inv in E as (? & _ & E). destruct (decide _) in E; [injection E as _ <-; apply par_refl|].
      do 3 apply obind_ret_inv in E as (? & _ & E). destruct (decide _) in E; [injection E as _ <-; apply par_refl|]. by eapply online_kept.
    - same E. - same E. - same E. - same E. - same E.
  Qed.
  Lemma rstep_kept (e e' : est) o r : reg_step S A e o = Ret (r, e') -> par_kept (e_params e) (e_params e').
  Proof using.
    destruct o; cbn [reg_step]; intros H; apply obind_ret_inv in H as ([q e1] & E & H); injection H as _ <-.
    - by eapply rfit_kept.
    - unfold reg_partial_fit in E. destruct (is_fitted _ _); [|by eapply rfit_kept]. unfold reg_fit_online_checked in E.
      apply obind_ret_inv in E as (? & _ & E). destruct (decide _) in E; [injection E as _ <-; apply par_refl|].
      do 2 apply obind_ret_inv in E as (? & _ & E). destruct (decide _) in E; [injection E as _ <-; apply par_refl|].
      apply obind_ret_inv in E as (? & _ & E). cbv zeta in E. destruct (decide _) in E; [injection E as _ <-; apply par_refl|]. by eapply ronline_kept.
    - same E. - same E.
  Qed.
  Lemma run_kept (e e' : est) os rs : clf_run S A e os = Ret (rs, e') -> par_kept (e_params e) (e_params e').
  Proof using.
    revert rs e'. induction os as [|o os IH] using rev_ind; intros rs e' H; [injection H as _ <-; apply par_refl|].
    rewrite clf_run_snoc in H. apply obind_ret_inv in H as ([rs1 e1] & E1 & H). apply obind_ret_inv in H as ([r e2] & E2 & H). injection H as _ <-.
    eapply par_trans; [by eapply IH|by eapply step_kept].
  Qed.
  Lemma rrun_kept (e e' : est) os rs : reg_run S A e os = Ret (rs, e') -> par_kept (e_params e) (e_params e').
  Proof using.
    revert rs e'. induction os as [|o os IH] using rev_ind; intros rs e' H; [injection H as _ <-; apply par_refl|].
    rewrite reg_run_snoc in H. apply obind_ret_inv in H as ([rs1 e1] & E1 & H). apply obind_ret_inv in H as ([r e2] & E2 & H). injection H as _ <-.
    eapply par_trans; [by eapply IH|by eapply rstep_kept].
  Qed.
  Lemma cz_run (e : est) os : s_nonzero (e_params e) -> clf_run S A (ecz S A e) os = then_cz S A (clf_run S A e os).
  Proof using.
    intros Hs. induction os as [|o os IH] using rev_ind; [done|]. rewrite !clf_run_snoc, IH. unfold then_cz at 1. rewrite then_cz_bind, obind_assoc.
    apply obind_ext. intros [rs e1] E1. cbn [obind]. rewrite cz_step by (by eapply par_s; [eapply run_kept, E1|]). unfold then_cz.
    rewrite !obind_assoc. apply obind_ext. by intros [r e2] _.
  Qed.
  Lemma cz_rrun (e : est) os : s_nonzero (e_params e) -> reg_run S A (ecz S A e) os = then_cz S A (reg_run S A e os).
  Proof using.
    intros Hs. induction os as [|o os IH] using rev_ind; [done|]. rewrite !reg_run_snoc, IH. unfold then_cz at 1. rewrite then_cz_bind, obind_assoc.
    apply obind_ext. intros [rs e1] E1. cbn [obind]. rewrite cz_rstep by (by eapply par_s; [eapply rrun_kept, E1|]). unfold then_cz.
    rewrite !obind_assoc. apply obind_ext. by intros [r e2] _.
  Qed.
  Lemma cz_evaluates (vw : aview A) d (e : est) os : s_nonzero (e_params e) -> evaluates_ok S A vw d e os -> evaluates_ok S A vw d (ecz S A e) os.
  Proof using.
    intros Hs H pre X y post rs e' L nf Eq Er Ed. rewrite cz_run in Er by done. unfold then_cz in Er. apply obind_ret_inv in Er as ([rs1 e1] & E1 & Er).
    injection Er as -> _. by eapply H.
  Qed.
End Kept.

(** ** Dropping the sign of zeros keeps an estimator in shape *)
Lemma cz_clf_has a p : s_nonzero p -> clf_has a p -> clf_has a (cz <$> p).
Proof.
  intros Hs []. constructor; try (by rewrite ?pz_states, ?pz_threshold, ?pz_weighted, ?pz_mw, ?pz_boost, ?pz_n_jobs, ?pz_verbose, ?pz_ct, ?pz_tile).
  - unfold P_clauses_per_label. by rewrite cz_int.
  - by rewrite cz_s.
  - by rewrite pz_seed.
Qed.
Definition plain_C1 (a : reg_args) : reg_args :=
  RegArgs (ra_clauses a) (ra_states a) (ra_s a) (ra_threshold a) (ra_weighted a) (ra_max_weight a) (ra_boost a)
    (ra_n_jobs a) (ra_verbose a) (ra_counting a) (ra_tile a) (ra_loss a) (unsigned_zero (ra_C1 a)) (ra_box_muller a) (ra_seed a).
Lemma cz_reg_has a p : s_nonzero p -> reg_has a p -> reg_has (plain_C1 a) (cz <$> p).
Proof.
  intros Hs []. constructor; cbn [plain_C1 ra_clauses ra_states ra_s ra_threshold ra_weighted ra_max_weight ra_boost
    ra_n_jobs ra_verbose ra_counting ra_tile ra_loss ra_C1 ra_box_muller ra_seed];
    try (by rewrite ?pz_rclauses, ?pz_states, ?pz_threshold, ?pz_weighted, ?pz_mw, ?pz_boost, ?pz_n_jobs, ?pz_verbose, ?pz_ct, ?pz_tile, ?pz_loss, ?pz_bm).
  - by rewrite cz_s.
  - unfold P_loss_C1 in *. by rewrite cz_real, rh_C1.
  - by rewrite pz_seed.
Qed.
Lemma s_has p s : P_s p = Ret s -> s_valid s = true -> s_nonzero p.
Proof. intros E Hs b Q. unfold P_s, at_real, p_at in E. rewrite Q in E. injection E as <-. discriminate Hs. Qed.
Lemma clf_s_nonzero a p : clf_valid a -> clf_has a p -> s_nonzero p.
Proof. intros [_ [] _] []. by eapply s_has. Qed.
Lemma reg_s_nonzero a p : reg_valid a -> reg_has a p -> s_nonzero p.
Proof. intros [_ [] _] []. by eapply s_has. Qed.
Lemma plain_valid a : reg_valid a -> reg_valid (plain_C1 a).
Proof. intros [[] [] H]. constructor; [|by constructor|done]. constructor; try done. cbn. by destruct (ra_C1 a). Qed.

Lemma combine_fin (r : list float32) : Forall (fun v => fin32 v) r -> forallb (fun p => SFeqb p.1 p.2) (combine r r) = true.
Proof.
  induction 1 as [|v r Hv _ IH]; [done|]. cbn [combine forallb fst snd]. rewrite IH, andb_true_r. apply SFeqb_iff. split; [done|]. intros ->. destruct Hv as [_ Hv]. discriminate Hv.
Qed.
(** how the polarity matrix of each of the two state types is compared: TAState has none, TAStateWithPolarity compares bit matrices *)
Inductive tsetlini_equality (R : rnd) : forall A : algo R, aview A -> (a_pol A -> a_pol A -> bool) -> Prop :=
| equality_classic : tsetlini_equality R (classic R) (cl_view R) unit_eqb
| equality_bitwise : tsetlini_equality R (Algo.bitwise R) (bw_view R) bm_eqb.
Lemma equality_algo R A vw eqb : tsetlini_equality R A vw eqb -> tsetlini_algo R A vw.
Proof. intros []; constructor. Qed.

Section Equal.
  Context (sh : irng -> nat -> list nat * irng) (l : bool) (fuel : nat) (b1 b2 : Z -> float32) (Hsh : shuffle_ok sh).
  Let R := mt_rnd sh l fuel b1 b2.
  Let HR : rnd_ok R irng_ok frng_clean := mt_rnd_clean sh l fuel b1 b2 Hsh.
  Context (A : algo R) (vw : aview A) (peq : a_pol A -> a_pol A -> bool) (HE : tsetlini_equality R A vw peq).
  Context (S : sch) (HS : sch_ok S).
  Notation est := (est (a_pol A) (eS S) (eG R) (eF R)).

  Lemma equality_laws w N : (w = 8 \/ w = 16 \/ w = 32) -> 1 <= N <= 2 ^ (w - 1) ->
    exists I E1n E1p E2, (forall U V, laws (R := R) A irng_ok vw U V w N I E1n E1p E2) /\
      forall n nf n' nf' m p p', I n nf m p -> I n' nf' m p' -> peq p p' = true -> p = p'.
  Proof using HE Hsh.
    intros Hw HN. destruct HE.
    - exists (cl_inv R w N), (cl_E1n R N), (cl_E1p R N), (cl_E2 R). split.
      + intros U V. by apply (classic_laws R irng_ok frng_clean HR).
      + by intros n nf n' nf' m [] [].
    - exists (bw_struct R w), (bw_E1n R N), (bw_E1p R N), (bw_E2_any R). split.
      + intros U V. by apply (bitwise_laws_struct R irng_ok frng_clean HR).
      + intros n nf n' nf' m p p' (_ & _ & _ & E1 & _ & E2) (_ & _ & _ & E1' & _ & E2') Eq. apply bm_eqb_eq; [exact Eq|]. by rewrite E2, E2', <- E1, <- E1'.
  Qed.
  Lemma peq_refl q : peq q q = true.
  Proof using HE. destruct HE; [done|apply bm_eqb_refl]. Qed.

  (** what comparing two estimators finds out *)
  Lemma eqb_parts ceq o1 o2 (e1 e2 : est) : o1 <> o2 -> est_eqb peq ceq o1 o2 e1 e2 = true ->
    (ta_matrix (e_ta e1) = ta_matrix (e_ta e2) /\ ta_weights (e_ta e1) = ta_weights (e_ta e2) /\ peq (ta_pol (e_ta e1)) (ta_pol (e_ta e2)) = true) /\
    e_igen e1 = e_igen e2 /\ mt_eqb SFeqb (e_fgen e1) (e_fgen e2) = true /\
    (cz <$> e_params e1 = cz <$> e_params e2 /\ map_Forall (fun _ v => not_nan v) (e_params e1)) /\ ceq (e_cache e1) (e_cache e2) = true.
  Proof using.
    intros Ho H. unfold est_eqb in H. rewrite (proj2 (Z.eqb_neq o1 o2) Ho) in H. apply andb_true_iff in H as [H H5]. apply andb_true_iff in H as [H H4].
    apply andb_true_iff in H as [H H3]. apply andb_true_iff in H as [H H2]. unfold ta_eqb in H. apply andb_true_iff in H as [H H1]. apply andb_true_iff in H as [H H0].
    apply nm_eqb_eq in H. unfold vec_eqb in H0. apply bool_decide_eq_true in H0. apply irng_eqb in H2. apply params_eqb_iff in H4. done.
  Qed.
  Lemma eqb_join ceq o1 o2 (e1 e2 : est) : e_ta e2 = e_ta e1 -> e_igen e2 = e_igen e1 -> e_fgen e2 = e_fgen e1 -> frng_ok (e_fgen e1) ->
    cz <$> e_params e1 = cz <$> e_params e2 -> map_Forall (fun _ v => not_nan v) (e_params e1) -> ceq (e_cache e1) (e_cache e2) = true ->
    est_eqb peq ceq o1 o2 e1 e2 = true.
  Proof using HE.
    intros H1 H2 H3 Hf H4 H5 H6. unfold est_eqb. destruct (o1 =? o2); [done|]. destruct e1 as [q1 t1 c1 g1 f1], e2 as [q2 t2 c2 g2 f2]. cbn in *. subst t2 g2 f2.
    unfold ta_eqb, vec_eqb. rewrite H6, peq_refl, (proj2 (nm_eqb_eq (ta_matrix t1) (ta_matrix t1)) eq_refl). rewrite (bool_decide_eq_true_2 (ta_weights t1 = ta_weights t1)) by reflexivity. cbn [andb].
    rewrite (proj2 (irng_eqb g1 g1) eq_refl), (proj2 (params_eqb_iff q1 q2) (conj H4 H5)), !andb_true_r. cbn [andb]. unfold mt_eqb. rewrite !Nat.eqb_refl. cbn [andb].
    rewrite (combine_same Z.eqb) by apply Z.eqb_refl. rewrite andb_true_r. destruct Hf as [_ Hf]. by apply combine_fin.
  Qed.

  (** ecz keeps the invariant *)
  Lemma ecz_at I a p d (e : est) : clf_created a p -> clf_at (R := R) irng_ok frng_clean S A True True I a p d e ->
    clf_created a (cz <$> p) /\ clf_at (R := R) irng_ok frng_clean S A True True I a (cz <$> p) d (ecz S A e) /\ s_nonzero (e_params e).
  Proof using.
    intros [Ha Hh Hu] Hat. pose proof (clf_s_nonzero _ _ Ha Hh) as Hs. split; [|split].
    - constructor; [done|by apply cz_clf_has|]. intros z. rewrite pz_labels. apply Hu.
    - destruct d as [[L nf]|]; [|cbn in Hat; by subst e]. destruct Hat as [(Hv & [D1 D2 D3 D4 D5] & Hc) Ep]. split; [split; [done|split]|].
      + constructor; try done.
        * apply cz_clf_has; [|done]. by eapply clf_s_nonzero.
        * cbn [e_params ecz with_params]. by rewrite pz_labels.
        * cbn [e_params ecz with_params]. by rewrite pz_features.
      + exact Hc.
      + cbn [e_params ecz with_params]. rewrite Ep. unfold clf_fit_params. by rewrite !cz_insert.
    - destruct d as [[L nf]|]; [|cbn in Hat; by subst e]. destruct Hat as [(Hv & [D1 _ _ _ _] & _) _]. by eapply clf_s_nonzero.
  Qed.
  Lemma ecz_rat I a p d (e : est) : reg_created a p -> reg_at (R := R) irng_ok S A True True I a p d e ->
    reg_created (plain_C1 a) (cz <$> p) /\ reg_at (R := R) irng_ok S A True True I (plain_C1 a) (cz <$> p) d (ecz S A e) /\ s_nonzero (e_params e).
  Proof using.
    intros [Ha Hh] Hat. pose proof (reg_s_nonzero _ _ Ha Hh) as Hs. split; [|split].
    - constructor; [by apply plain_valid|by apply cz_reg_has].
    - destruct d as [nf|]; [|cbn in Hat; by subst e]. destruct Hat as [(Hv & [D1 D2] & Hc) Ep]. split; [split; [by apply plain_valid|split]|].
      + constructor.
        * apply cz_reg_has; [|done]. by eapply reg_s_nonzero.
        * cbn [e_params ecz with_params]. by rewrite pz_features.
      + destruct Hc as [C1 C2 C3 C4 C5 C6]. by constructor.
      + cbn [e_params ecz with_params]. rewrite Ep. unfold reg_fit_params. by rewrite !cz_insert.
    - destruct d as [nf|]; [|cbn in Hat; by subst e]. destruct Hat as [(Hv & [D1 _] & _) _]. by eapply reg_s_nonzero.
  Qed.

  Definition eqb_outcome {RES} ceq (o1 o2 : Z) (r1 r2 : RES * est) : Prop := r2.1 = r1.1 /\ est_eqb peq ceq o1 o2 r1.2 r2.2 = true.

  Theorem clf_equal_future a1 a2 p1 p2 os1 rs1 os2 rs2 (e1 e2 : est) o1 o2 more : clf_created a1 p1 -> clf_created a2 p2 ->
    clf_history S A vw p1 os1 rs1 e1 -> clf_history S A vw p2 os2 rs2 e2 -> o1 <> o2 -> clf_eqb peq o1 o2 e1 e2 = true ->
    Forall (clf_op_phys A vw) more -> evaluates_ok S A vw (clf_dims_of os1 rs1) e1 more ->
    orel (eqb_outcome clf_cache_eqb o1 o2) (clf_run S A e1 more) (clf_run S A e2 more).
  Proof using HE HS Hsh.
    intros Hc1 Hc2 Hh1 Hh2 Ho Heq Hph Hev. pose proof (equality_algo _ _ _ _ HE) as HA.
    destruct (eqb_parts _ _ _ _ _ Ho Heq) as ((Em & Ew & Epol) & Eg & Ef & (Ep & Hnan) & _).
    pose proof (clf_reach_has (R := R) irng_ok frng_clean HR A vw HA S HS a1 p1 os1 rs1 e1 Hc1 Hh1) as Hp1.
    pose proof (clf_reach_has (R := R) irng_ok frng_clean HR A vw HA S HS a2 p2 os2 rs2 e2 Hc2 Hh2) as Hp2.
    pose proof (clf_s_nonzero _ _ (cc_valid _ _ Hc1) Hp1) as Hs1. pose proof (clf_s_nonzero _ _ (cc_valid _ _ Hc2) Hp2) as Hs2.
    destruct (alike_states (cz <$> e_params e1) (cz <$> e_params e2) a1 a2) as [Es Ec]; [by rewrite Ep|by apply cz_clf_has..|].
    pose proof (cc_valid _ _ Hc1) as Ha. destruct (wide_enough (ca_counting a1) (ca_states a1)) as [W1 W2].
    { destruct Ha as [_ [] _]. done. } { destruct Ha as [[] [] _]. unfold is_int in *. lia. }
    destruct (equality_laws _ _ W1 W2) as (I & E1n & E1p & E2 & Lw & Hpol).
    pose proof (clf_history_at (R := R) irng_ok frng_clean HR S HS A vw _ _ I E1n E1p E2 Lw a1 p1 os1 rs1 e1 Hc1 eq_refl eq_refl Hh1) as At1.
    pose proof (clf_history_at (R := R) irng_ok frng_clean HR S HS A vw _ _ I E1n E1p E2 Lw a2 p2 os2 rs2 e2 Hc2 ltac:(congruence) ltac:(congruence) Hh2) as At2.
    assert (e_fgen e2 = e_fgen e1) as Ef'.
    { symmetry. apply frng_eqb_eq; [..|exact Ef].
      - destruct (clf_dims_of os1 rs1) as [[? ?]|]; [by destruct At1 as [(_ & _ & []) _]|]. cbn in At1. subst e1. apply (f_init_ok R irng_ok frng_clean HR).
      - destruct (clf_dims_of os2 rs2) as [[? ?]|]; [by destruct At2 as [(_ & _ & []) _]|]. cbn in At2. subst e2. apply (f_init_ok R irng_ok frng_clean HR). }
    assert (e_ta e2 = e_ta e1) as Et.
    { enough (ta_pol (e_ta e1) = ta_pol (e_ta e2)) as Q. { destruct (e_ta e1), (e_ta e2). cbn in *. by subst. }
      destruct (clf_dims_of os1 rs1) as [[L1 n1]|], (clf_dims_of os2 rs2) as [[L2 n2]|].
      - destruct At1 as [(_ & _ & [B1 _ _ _ _ _ _]) _], At2 as [(_ & _ & [B2 _ _ _ _ _ _]) _]. cbn [fst snd] in B1, B2. rewrite <- Em in B2. by eapply Hpol.
      - destruct At1 as [F1 _]. pose proof (clf_is_fitted (R := R) irng_ok frng_clean S A vw True True _ _ I E1n E1p E2 (Lw _ _) a1 L1 n1 (cc_valid _ _ Hc1) e1 F1) as F.
        cbn in At2. subst e2. unfold is_fitted in F. rewrite Em in F. done.
      - destruct At2 as [F2 _]. pose proof (clf_is_fitted (R := R) irng_ok frng_clean S A vw True True _ _ I E1n E1p E2 (Lw _ _) a2 L2 n2 (cc_valid _ _ Hc2) e2 F2) as F.
        cbn in At1. subst e1. unfold is_fitted in F. rewrite <- Em in F. done.
      - cbn in At1, At2. by subst e1 e2. }
    destruct (ecz_at _ _ _ _ _ Hc1 At1) as (Hc1' & At1' & _). destruct (ecz_at _ _ _ _ _ Hc2 At2) as (Hc2' & At2' & _).
    assert (same_estimator (ecz S A e1) (ecz S A e2)) as Hsame.
    { split; [|split; [exact Et|split; [exact (eq_sym Eg)|exact Ef']]]. cbn [e_params ecz with_params]. by rewrite Ep. }
    destruct (clf_esim_of_same (R := R) irng_ok frng_clean A S S 0 I a1 a2 _ _ _ _ _ _ Hc1' Hc2' At1' At2' Hsame) as [Ed Hes]. rewrite <- Ed in At2'.
    pose proof (clf_run_sim (R := R) irng_ok frng_clean HR S HS S HS A vw _ _ I E1n E1p E2 Lw a1 a2 _ _ _ _ _ more Hc1' Hc2' eq_refl eq_refl At1' At2' Hes Hph
      (cz_evaluates S A vw _ _ _ Hs1 Hev)) as Hsim.
    rewrite !cz_run in Hsim by done. unfold then_cz in Hsim.
    destruct (clf_run S A e1 more) as [[r1 f1]| | |] eqn:R1, (clf_run S A e2 more) as [[r2 f2]| | |] eqn:R2; try done.
    cbn in Hsim. destruct Hsim as ((Er & Hp & Jt & Jg & Jf & Jc) & At & _). cbn [fst snd] in *. split; [done|]. cbn [snd].
    pose proof (run_kept S A _ _ _ _ R1) as K1. pose proof (run_kept S A _ _ _ _ R2) as K2.
    apply eqb_join.
    - exact Jt.
    - exact Jg.
    - exact Jf.
    - apply frng_clean_ok. destruct (clf_dims_from _ _ _) as [[? ?]|]; [by destruct At as [(_ & _ & []) _]|]. cbn in At.
      change (e_fgen f1) with (e_fgen (ecz S A f1)). rewrite At. apply (f_init_ok R irng_ok frng_clean HR).
    - apply map_eq. intros k. destruct (decide (k = label_key \/ k = feature_key)) as [Hk|Hk].
      + symmetry. apply Hp; by destruct Hk as [->| ->].
      + apply (f_equal (fun m : params => m !! k)) in Ep. rewrite !lookup_fmap in *. rewrite (proj1 K1), (proj1 K2) by tauto. done.
    - by eapply par_nan.
    - destruct Jc as (C1 & C2 & C3 & _). cbn [e_cache ecz with_params] in *. unfold clf_cache_eqb. rewrite C1, C2, C3, !Nat.eqb_refl. done.
  Qed.

  Lemma rrun_fgen (e e' : est) os rs : frng_clean (e_fgen e) -> reg_run S A e os = Ret (rs, e') -> frng_clean (e_fgen e').
  Proof using Hsh.
    intros Hf. revert rs e'. induction os as [|o os IH] using rev_ind; intros rs e' H; [injection H as _ <-; exact Hf|].
    rewrite reg_run_snoc in H. apply obind_ret_inv in H as ([r1 e1] & E1 & H). apply obind_ret_inv in H as ([r e2] & E2 & H). injection H as _ <-.
    exact (reg_step_fgen (R := R) irng_ok frng_clean HR S A e1 e2 o r (IH _ _ E1) E2).
  Qed.
  Theorem reg_equal_future a1 a2 p1 p2 os1 rs1 os2 rs2 (e1 e2 : est) o1 o2 more : reg_created a1 p1 -> reg_created a2 p2 ->
    reg_history S A vw p1 os1 rs1 e1 -> reg_history S A vw p2 os2 rs2 e2 -> o1 <> o2 -> reg_eqb peq o1 o2 e1 e2 = true ->
    Forall (reg_op_phys A vw) more ->
    orel (eqb_outcome reg_cache_eqb o1 o2) (reg_run S A e1 more) (reg_run S A e2 more).
  Proof using HE HS Hsh.
    intros Hc1 Hc2 Hh1 Hh2 Ho Heq Hph. pose proof (equality_algo _ _ _ _ HE) as HA.
    destruct (eqb_parts _ _ _ _ _ Ho Heq) as ((Em & Ew & Epol) & Eg & Ef & (Ep & Hnan) & _).
    pose proof (reg_reach_has (R := R) irng_ok frng_clean HR A vw HA S HS a1 p1 os1 rs1 e1 Hc1 Hh1) as Hp1.
    pose proof (reg_reach_has (R := R) irng_ok frng_clean HR A vw HA S HS a2 p2 os2 rs2 e2 Hc2 Hh2) as Hp2.
    pose proof (reg_s_nonzero _ _ (rc_valid _ _ Hc1) Hp1) as Hs1. pose proof (reg_s_nonzero _ _ (rc_valid _ _ Hc2) Hp2) as Hs2.
    destruct (ralike_states (cz <$> e_params e1) (cz <$> e_params e2) (plain_C1 a1) (plain_C1 a2)) as [Es Ec]; [by rewrite Ep|by apply cz_reg_has..|].
    cbn [plain_C1 ra_states ra_counting] in Es, Ec.
    pose proof (rc_valid _ _ Hc1) as Ha. destruct (wide_enough (ra_counting a1) (ra_states a1)) as [W1 W2].
    { destruct Ha as [_ [] _]. done. } { destruct Ha as [[] [] _]. unfold is_int in *. lia. }
    destruct (equality_laws _ _ W1 W2) as (I & E1n & E1p & E2 & Lw & Hpol).
    pose proof (reg_history_at (R := R) irng_ok frng_clean HR S HS A vw _ _ I E1n E1p E2 Lw a1 p1 os1 rs1 e1 Hc1 eq_refl eq_refl Hh1) as At1.
    pose proof (reg_history_at (R := R) irng_ok frng_clean HR S HS A vw _ _ I E1n E1p E2 Lw a2 p2 os2 rs2 e2 Hc2 ltac:(congruence) ltac:(congruence) Hh2) as At2.
    pose proof (reg_history_fgen (R := R) irng_ok frng_clean HR S A vw p1 os1 rs1 e1 Hh1) as Hf1.
    assert (e_fgen e2 = e_fgen e1) as Ef'.
    { symmetry. apply frng_eqb_eq; [exact Hf1| |exact Ef]. exact (reg_history_fgen (R := R) irng_ok frng_clean HR S A vw p2 os2 rs2 e2 Hh2). }
    assert (e_ta e2 = e_ta e1) as Et.
    { enough (ta_pol (e_ta e1) = ta_pol (e_ta e2)) as Q. { destruct (e_ta e1), (e_ta e2). cbn in *. by subst. }
      destruct (reg_dims_of os1 rs1) as [n1|], (reg_dims_of os2 rs2) as [n2|].
      - destruct At1 as [(_ & _ & [B1 _ _ _ _ _]) _], At2 as [(_ & _ & [B2 _ _ _ _ _]) _]. cbn [fst snd] in B1, B2. rewrite <- Em in B2. by eapply Hpol.
      - destruct At1 as [F1 _]. pose proof (reg_is_fitted (R := R) irng_ok S A vw True True _ _ I E1n E1p E2 (Lw _ _) a1 n1 (rc_valid _ _ Hc1) e1 F1) as F.
        cbn in At2. subst e2. unfold is_fitted in F. rewrite Em in F. done.
      - destruct At2 as [F2 _]. pose proof (reg_is_fitted (R := R) irng_ok S A vw True True _ _ I E1n E1p E2 (Lw _ _) a2 n2 (rc_valid _ _ Hc2) e2 F2) as F.
        cbn in At1. subst e1. unfold is_fitted in F. rewrite <- Em in F. done.
      - cbn in At1, At2. by subst e1 e2. }
    destruct (ecz_rat _ _ _ _ _ Hc1 At1) as (Hc1' & At1' & _). destruct (ecz_rat _ _ _ _ _ Hc2 At2) as (Hc2' & At2' & _).
    assert (same_estimator (ecz S A e1) (ecz S A e2)) as Hsame.
    { split; [|split; [exact Et|split; [exact (eq_sym Eg)|exact Ef']]]. cbn [e_params ecz with_params]. by rewrite Ep. }
    destruct (reg_esim_of_same (R := R) irng_ok A vw S S _ _ I E1n E1p E2 Lw _ _ _ _ _ _ _ _ Hc1' Hc2' At1' At2' Hsame) as [Ed Hes]. rewrite <- Ed in At2'.
    pose proof (reg_run_sim (R := R) irng_ok frng_clean HR S HS S HS A vw _ _ I E1n E1p E2 Lw _ _ _ _ _ _ _ more Hc1' Hc2' eq_refl eq_refl At1' At2' Hes Hph) as Hsim.
    rewrite !cz_rrun in Hsim by done. unfold then_cz in Hsim.
    destruct (reg_run S A e1 more) as [[r1 f1]| | |] eqn:R1, (reg_run S A e2 more) as [[r2 f2]| | |] eqn:R2; try done.
    cbn in Hsim. destruct Hsim as ((Er & Hp & Jt & Jg & Jf & Jc) & _ & _). cbn [fst snd] in *. split; [done|]. cbn [snd].
    pose proof (rrun_kept S A _ _ _ _ R1) as K1. pose proof (rrun_kept S A _ _ _ _ R2) as K2.
    apply eqb_join.
    - exact Jt.
    - exact Jg.
    - exact Jf.
    - apply frng_clean_ok. exact (rrun_fgen _ _ _ _ Hf1 R1).
    - apply map_eq. intros k. destruct (decide (k = label_key \/ k = feature_key)) as [Hk|Hk].
      + symmetry. apply Hp; by destruct Hk as [->| ->].
      + apply (f_equal (fun m : params => m !! k)) in Ep. rewrite !lookup_fmap in *. rewrite (proj1 K1), (proj1 K2) by tauto. done.
    - by eapply par_nan.
    - destruct Jc as (C1 & C2 & C3 & _). cbn [e_cache ecz with_params] in *. unfold reg_cache_eqb. rewrite C2, !Nat.eqb_refl. done.
  Qed.

  (** an estimator equals any other with the same history *)
  Theorem clf_equal_self p os rs (e : est) o1 o2 a : clf_created a p -> clf_history S A vw p os rs e -> map_Forall (fun _ v => not_nan v) p ->
    clf_eqb peq o1 o2 e e = true.
  Proof using HE HS Hsh.
    intros Hc Hh Hn. apply eqb_join; try done.
    - destruct (clf_hist_laws (R := R) irng_ok frng_clean HR A vw (equality_algo _ _ _ _ HE) a (cc_valid _ _ Hc)) as (I & E1n & E1p & E2 & Lw).
      pose proof (clf_history_at (R := R) irng_ok frng_clean HR S HS A vw _ _ I E1n E1p E2 Lw a p os rs e Hc eq_refl eq_refl Hh) as At.
      apply frng_clean_ok. destruct (clf_dims_of os rs) as [[? ?]|]; [by destruct At as [(_ & _ & []) _]|]. cbn in At. subst e. apply (f_init_ok R irng_ok frng_clean HR).
    - destruct Hh as [_ Hr]. apply run_kept in Hr. by eapply par_nan.
    - unfold clf_cache_eqb. by rewrite !Nat.eqb_refl.
  Qed.
  Theorem reg_equal_self p os rs (e : est) o1 o2 : reg_history S A vw p os rs e -> map_Forall (fun _ v => not_nan v) p ->
    reg_eqb peq o1 o2 e e = true.
  Proof using HE Hsh.
    intros Hh Hn. apply eqb_join; try done.
    - apply frng_clean_ok. exact (reg_history_fgen (R := R) irng_ok frng_clean HR S A vw p os rs e Hh).
    - destruct Hh as [_ Hr]. apply rrun_kept in Hr. by eapply par_nan.
    - unfold reg_cache_eqb. by rewrite !Nat.eqb_refl.
  Qed.
  (** with a NaN among the parameters it does not *)
  Theorem equal_nan ceq (e1 e2 : est) o1 o2 k : e_params e1 !! k = Some (PReal S754_nan) -> o1 <> o2 -> est_eqb peq ceq o1 o2 e1 e2 = false.
  Proof using.
    intros Hk Ho. destruct (est_eqb peq ceq o1 o2 e1 e2) eqn:E; [|done]. destruct (eqb_parts _ _ _ _ _ Ho E) as (_ & _ & _ & (_ & Hn) & _).
    by destruct (Hn _ _ Hk).
  Qed.

  (** a saved and loaded estimator equals the original *)
  Context (C : pol_codec (a_pol A)) (HC : tsetlini_codec R A vw C).
  Let HRo : rnd_ok R irng_ok frng_ok := mt_rnd_ok sh l fuel b1 b2 Hsh.
  Lemma finite_not_nan p : finite_reals p -> map_Forall (fun _ v => not_nan v) p.
  Proof using. intros H k v E ->. specialize (H k _ E). discriminate H. Qed.
  Theorem clf_equal_loaded a p os rs (e e0 : est) o1 o2 L nf : clf_created a p -> storable_params p -> finite_reals p ->
    clf_history S A vw p os rs e -> clf_dims_of os rs = Some (L, nf) ->
    exists j e', clf_to_json C S e = Ret j /\ clf_from_json C S e0 (reparse j) = Ret e' /\ clf_eqb peq o1 o2 e e' = true.
  Proof using HE HS HC Hsh.
    intros Hc Hst Hfin Hh Hd. destruct (clf_loaded sh l fuel b1 b2 Hsh A vw C HC S S HS a p os rs e e0 L nf Hc Hst Hfin Hh Hd)
      as (j & e' & E1 & E2 & Heq & I & E1n & E1p & E2' & Lw & At'). exists j, e'. split; [done|]. split; [done|].
    pose proof (clf_history_at (R := R) irng_ok frng_ok HRo S HS A vw _ _ I E1n E1p E2' Lw a p os rs e Hc eq_refl eq_refl Hh) as At. rewrite Hd in At.
    pose proof (equal_same _ _ Heq) as Hsame. destruct Heq as (Q1 & Q2 & Q3 & Q4).
    destruct (clf_esim_of_same (R := R) irng_ok frng_ok A S S 0 I a a p p _ _ _ _ Hc Hc At At' Hsame) as [_ (_ & _ & _ & _ & C1 & C2 & C3 & _)].
    apply eqb_join; try done.
    - by destruct At as [(_ & _ & []) _].
    - exact (f_equal (fmap cz) (eq_sym Q1)).
    - destruct Hh as [_ Hr]. apply run_kept in Hr. eapply par_nan; [exact Hr|]. by apply finite_not_nan.
    - unfold clf_cache_eqb. by rewrite C1, C2, C3, !Nat.eqb_refl.
  Qed.
  Theorem reg_equal_loaded a p os rs (e e0 : est) o1 o2 nf : reg_created a p -> storable_params p -> finite_reals p ->
    reg_history S A vw p os rs e -> reg_dims_of os rs = Some nf ->
    exists j e', reg_to_json C S e = Ret j /\ reg_from_json C S e0 (reparse j) = Ret e' /\ reg_eqb peq o1 o2 e e' = true.
  Proof using HE HS HC Hsh.
    intros Hc Hst Hfin Hh Hd. destruct (reg_loaded sh l fuel b1 b2 Hsh A vw C HC S S HS a p os rs e e0 nf Hc Hst Hfin Hh Hd)
      as (j & e' & E1 & E2 & Heq & I & E1n & E1p & E2' & Lw & At'). exists j, e'. split; [done|]. split; [done|].
    pose proof (reg_history_at (R := R) irng_ok frng_ok HRo S HS A vw _ _ I E1n E1p E2' Lw a p os rs e Hc eq_refl eq_refl Hh) as At. rewrite Hd in At.
    pose proof (equal_same _ _ Heq) as Hsame. destruct Heq as (Q1 & Q2 & Q3 & Q4).
    destruct (reg_esim_of_same (R := R) irng_ok A vw S S _ _ I E1n E1p E2' Lw a a p p _ _ _ _ Hc Hc At At' Hsame) as [_ (_ & _ & _ & _ & C1 & C2 & C3 & _)].
    apply eqb_join; try done.
    - exact (reg_history_fgen (R := R) irng_ok frng_ok HRo S A vw p os rs e Hh).
    - exact (f_equal (fmap cz) (eq_sym Q1)).
    - destruct Hh as [_ Hr]. apply rrun_kept in Hr. eapply par_nan; [exact Hr|]. by apply finite_not_nan.
    - unfold reg_cache_eqb. by rewrite C2, !Nat.eqb_refl.
  Qed.
End Equal.
