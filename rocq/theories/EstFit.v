(** * fit and partial_fit, and histories of public calls. *)
From Verif Require Export EstUpdate.
From stdpp Require Import list.
Local Open Scope Z_scope.

(** ** Extremes of label lists *)
Definition max_label (y : list Z) : Z := foldr Z.max 0 y.
(** number of labels fit works with *)
Definition n_labels (y : list Z) (max_labels : Z) : Z := Z.max (max_label y + 1) max_labels.

Lemma foldl_max_spec l a : a <= foldl Z.max a l /\ (forall v, v ∈ l -> v <= foldl Z.max a l) /\ (foldl Z.max a l = a \/ foldl Z.max a l ∈ l).
Proof.
  revert a. induction l as [|b l IH]; intros a; cbn [foldl].
  - split; [lia|]. split; [|by left]. intros v Hv. by apply elem_of_nil in Hv.
  - destruct (IH (Z.max a b)) as (H1 & H2 & H3). split; [lia|]. split.
    + intros v Hv. apply elem_of_cons in Hv as [->|Hv]; [lia|auto].
    + destruct H3 as [E|E]; [|right; by right]. destruct (Z.max_spec a b) as [[_ Em]|[_ Em]]; rewrite Em in *; rewrite E;
        [right; left|by left].
Qed.
Lemma foldl_min_spec l a : foldl Z.min a l <= a /\ (forall v, v ∈ l -> foldl Z.min a l <= v) /\ (foldl Z.min a l = a \/ foldl Z.min a l ∈ l).
Proof.
  revert a. induction l as [|b l IH]; intros a; cbn [foldl].
  - split; [lia|]. split; [|by left]. intros v Hv. by apply elem_of_nil in Hv.
  - destruct (IH (Z.min a b)) as (H1 & H2 & H3). split; [lia|]. split.
    + intros v Hv. apply elem_of_cons in Hv as [->|Hv]; [lia|auto].
    + destruct H3 as [E|E]; [|right; by right]. destruct (Z.min_spec a b) as [[_ Em]|[_ Em]]; rewrite Em in *; rewrite E;
        [by left|right; left].
Qed.
Lemma list_max_spec y : y <> [] -> exists hi, Estimator.list_max y = Ret hi /\ hi ∈ y /\ Forall (fun v => v <= hi) y.
Proof.
  destruct y as [|a l]; [done|]. intros _. destruct (foldl_max_spec l a) as (H1 & H2 & H3).
  eexists. split; [done|]. split; [destruct H3 as [->|H3]; [left|by right]|].
  constructor; [done|]. by apply Forall_forall.
Qed.
Lemma list_min_spec y : y <> [] -> exists lo, list_min y = Ret lo /\ lo ∈ y /\ Forall (fun v => lo <= v) y.
Proof.
  destruct y as [|a l]; [done|]. intros _. destruct (foldl_min_spec l a) as (H1 & H2 & H3).
  eexists. split; [done|]. split; [destruct H3 as [->|H3]; [left|by right]|].
  constructor; [done|]. by apply Forall_forall.
Qed.
Lemma max_label_spec y : Forall (fun v => 0 <= v) y -> 0 <= max_label y /\ Forall (fun v => v <= max_label y) y /\
  (y <> [] -> max_label y ∈ y).
Proof.
  induction 1 as [|a l Ha Hl (H1 & H2 & H3)]; [split; [done|]; split; [constructor|done]|].
  unfold max_label in *. cbn [foldr]. split; [lia|]. split.
  - constructor; [lia|]. eapply Forall_impl; [exact H2|]. intros; cbn in *; lia.
  - intros _. destruct (decide (l = [])) as [->|Hne].
    + cbn. rewrite Z.max_l by lia. left.
    + destruct (Z.max_spec a (foldr Z.max 0 l)) as [[_ ->]|[_ ->]]; [right; auto|left].
Qed.
Lemma list_max_label y : y <> [] -> Forall (fun v => 0 <= v) y -> Estimator.list_max y = Ret (max_label y).
Proof.
  intros Hne H0. destruct (list_max_spec y Hne) as (hi & -> & Hin & HF). destruct (max_label_spec y H0) as (_ & HF' & Hin').
  rewrite Forall_forall in HF, HF'. f_equal. specialize (HF _ (Hin' Hne)). specialize (HF' _ Hin). lia.
Qed.

(** ** Initial weights *)
Definition weights_pre (weighted : bool) (maxw : Z) (ws : list Z) : Prop :=
  if weighted then Forall (fun w => 0 <= w /\ 1 + w <= maxw) ws else ws = [].
Lemma weights_ok_pre weighted maxw n ws : weights_ok weighted maxw n ws -> weights_pre weighted maxw ws.
Proof. unfold weights_ok, weights_pre. destruct weighted; [by intros [_ ?]|done]. Qed.
Lemma weights_resize (weighted : bool) maxw n ws : weights_pre weighted maxw ws -> 1 <= maxw ->
  weights_ok weighted maxw n (if weighted then resize0 n ws else ws).
Proof.
  unfold weights_pre, weights_ok. destruct weighted; [|done]. intros H Hm. unfold resize0. split.
  - rewrite app_length, take_length, replicate_length. lia.
  - apply Forall_app. split; [by apply Forall_take|]. apply Forall_replicate. lia.
Qed.

(** ** Parameters written by fit *)
Definition clf_fit_params (L nf : nat) (p : params) : params :=
  <["number_of_features" := PInt (Z.of_nat nf)]> (<["number_of_labels" := PInt (Z.of_nat L)]> p).
Definition reg_fit_params (nf : nat) (p : params) : params := <["number_of_features" := PInt (Z.of_nat nf)]> p.
Lemma clf_fit_params_again L nf L' nf' p : clf_fit_params L' nf' (clf_fit_params L nf p) = clf_fit_params L' nf' p.
Proof.
  unfold clf_fit_params. rewrite (insert_commute p "number_of_features" "number_of_labels") by done.
  rewrite insert_insert. rewrite (insert_commute _ "number_of_labels" "number_of_features") by done. by rewrite insert_insert.
Qed.
Lemma reg_fit_params_again nf nf' p : reg_fit_params nf' (reg_fit_params nf p) = reg_fit_params nf' p.
Proof. unfold reg_fit_params. by rewrite insert_insert. Qed.
Lemma clf_fit_params_has a L nf p : clf_has a p -> clf_has a (clf_fit_params L nf p).
Proof. intros. unfold clf_fit_params. apply clf_has_insert; [|by right]. apply clf_has_insert; [done|by left]. Qed.
Lemma reg_fit_params_has a nf p : reg_has a p -> reg_has a (reg_fit_params nf p).
Proof. intros. unfold reg_fit_params. apply reg_has_insert; [done|by right]. Qed.

Section Fit.
  Context {R : rnd} (g_ok : eG R -> Prop) (f_ok : eF R -> Prop) (HR : rnd_ok R g_ok f_ok).
  Context (S : sch) (HS : sch_ok S).
  Context (A : algo R) (vw : aview A) (U V : Prop).
  Context (w N : Z) (I : nat -> nat -> nmatrix -> a_pol A -> Prop).
  Context (E1n : nat -> coin_tosser -> a_smp A -> nat -> amp A -> amp A -> Prop).
  Context (E1p : bool -> nat -> coin_tosser -> a_smp A -> nat -> amp A -> amp A -> Prop).
  Context (E2 : nat -> a_smp A -> nat -> amp A -> amp A -> Prop).
  Context (Lw : laws A g_ok vw U V w N I E1n E1p E2).
  Notation G := (eG R).
  Notation F := (eF R).
  Notation smp := (a_smp A).
  Notation ta := (tastate (a_pol A)).
  Notation cache := (cache (eS S)).
  Notation est := (est (a_pol A) (eS S) G F).
  Notation clf_core := (clf_core g_ok f_ok S A U V I).
  Notation reg_core := (reg_core g_ok S A U V I).
  Notation clf_fitted := (clf_fitted g_ok f_ok S A U V I).
  Notation reg_fitted := (reg_fitted g_ok S A U V I).

  (** training data: as many targets as samples, at least one, all samples valid with [nf] features *)
  Definition data_ok (nf : nat) (X : list smp) (y : list Z) : Prop := batch_ok A vw nf X /\ length y = length X.
  Lemma data_ok_nf nf nf' X y : data_ok nf X y -> data_ok nf' X y -> nf = nf'.
  Proof.
    intros [[Hne H] _] [[_ H'] _]. destruct X as [|x X]; [done|]. inversion H; inversion H'; subst.
    rewrite <- (l_size _ _ _ _ _ _ _ _ _ _ _ Lw nf x), <- (l_size _ _ _ _ _ _ _ _ _ _ _ Lw nf' x); done.
  Qed.
  Lemma check_X_y_spec X y : Forall (v_phys vw) X ->
    (exists nf, data_ok nf X y /\ check_X_y A X y = Ret S_OK /\ front_size A X = Ret nf) \/
    ((forall nf, ~ data_ok nf X y) /\ check_X_y A X y = Ret S_VALUE_ERROR).
  Proof.
    intros HX. unfold check_X_y. destruct X as [|x X].
    { right. split; [|done]. intros nf [[? _] _]. done. }
    cbn [length Nat.eqb]. destruct (Nat.eqb_spec (length y) 0) as [E0|E0].
    { right. split; [|done]. intros nf [_ El]. cbn in El. lia. }
    destruct (Nat.eqb_spec (length y) (Datatypes.S (length X))) as [E1|E1]; cbn [negb].
    2:{ right. split; [|done]. intros nf [_ El]. cbn in El. lia. }
    assert (forall nf, data_ok nf (x :: X) y <-> same_size A (x :: X) = true /\ a_size A x = nf /\
      forallb (a_01 A) (x :: X) = true /\ Forall (fun x => a_pad A x = Ret true) (x :: X)) as Hd.
    { intros nf. unfold data_ok, batch_ok. rewrite (all_ok_iff g_ok A vw U V w N I E1n E1p E2 Lw nf x X HX). cbn [length]. naive_solver. }
    destruct (same_size A (x :: X)); cbn [negb]; [|right; split; [intros nf H%Hd; naive_solver|done]].
    destruct (forallb (a_01 A) (x :: X)); cbn [negb]; [|right; split; [intros nf H%Hd; naive_solver|done]].
    destruct (oall_total g_ok A vw U V w N I E1n E1p E2 Lw (x :: X) HX) as (b & -> & Hb). cbn [obind]. destruct b.
    - left. exists (a_size A x). split; [apply Hd; tauto|]. done.
    - right. split; [|done]. intros nf (_ & _ & _ & H)%Hd. apply Hb in H. done.
  Qed.
  Lemma is_fitted_construct p : is_fitted A (e_ta (construct S A p)) = false.
  Proof. done. Qed.

  Definition ct_good (s : float32) (nf : nat) : Prop :=
    wp U V (ct_make (f32_div f32_one s) (Z.of_nat nf)) (ct_ok R g_ok U V nf).

  (** ** Classifier *)
  Section Clf.
    Context (a : clf_args) (Ha : clf_valid a) (HN : N = ca_states a) (Hw : w = width_of (ca_counting a) (ca_states a)).
    Notation opl := (clf_opl a).
    Notation T := (ca_threshold a).
    (** conditions for absence of failures; trivial when failures are tolerated *)
    Record clf_side (L nf : nat) : Prop := {
      sd_L : (2 <= L)%nat \/ U;
      sd_T : T * 2 <= int_max \/ U;
      sd_n : Z.of_nat L * ca_clauses a <= int_max \/ U;
      sd_fits : v_fits vw w (2 * (L * opl)) nf \/ U;
      sd_nf : Z.of_nat nf <= int_max \/ U;
      sd_ct : ct_good (ca_s a) nf }.

    Lemma clf_init_run (e : est) L nf : (1 <= L)%nat -> clf_has a (e_params e) ->
      P_number_of_labels (e_params e) = Ret (Z.of_nat L) -> P_number_of_features (e_params e) = Ret (Z.of_nat nf) ->
      weights_pre (ca_weighted a) (ca_max_weight a) (ta_weights (e_ta e)) ->
      (Z.of_nat L * ca_clauses a <= int_max \/ U) -> (v_fits vw w (2 * (L * opl)) nf \/ U) -> ct_good (ca_s a) nf ->
      wp U V (clf_initialize S A e) (fun e' => e_params e' = e_params e /\ clf_fitted a L nf e').
    Proof.
      intros HL Hh HpL Hpf Hws s_n s_fits s_ct. unfold clf_initialize, initialize_state.
      pose proof Hh as Hh'. destruct Hh' as [h_cl h_st h_s h_thr h_w h_mw h_b h_nj h_v h_ct h_tl (z & Ez & h_seed)].
      destruct (clf_opl_facts a Ha) as (Ecl & Eq & Hev & Hopl). pose proof Ha as [_ Hacc _]. destruct Hacc.
      rewrite h_v, h_seed, h_st. cbn [obind]. apply wp_bind. unfold P_clf_clauses. rewrite HpL, h_cl. cbn [obind].
      apply wp_ci32; [intros [_ Hcl]|destruct s_n; [left; unfold int_min; lia|by right]].
      assert (Z.of_nat (L * opl) <= int_max) as Hn by nia.
      assert (P_clf_outputs (e_params e) = Ret (Z.of_nat (L * opl))) as Eout.
      { unfold P_clf_outputs. rewrite HpL, (P_opl a Ha _ Hh). cbn [obind]. rewrite ci32_ret by (unfold int_min; lia). f_equal. lia. }
      rewrite Eout, Hpf, h_ct, h_w. cbn [obind]. rewrite !Nat2Z.id.
      replace (Z.to_nat (Z.of_nat L * ca_clauses a)) with (2 * (L * opl))%nat by lia.
      fold (width_of (ca_counting a) (ca_states a)). rewrite <- Hw.
      apply wp_bind. eapply wp_mono; [apply (l_init _ _ _ _ _ _ _ _ _ _ _ Lw (L * opl) nf (g_init R (wrap_s 32 z)))|].
      { apply (g_init_ok R g_ok f_ok HR). } { nia. } { exact s_fits. }
      intros [[m p] g'] [HI Hg']. unfold clf_cache_reset. rewrite Eout, HpL, h_s, Hpf. cbn [obind]. rewrite !Nat2Z.id.
      apply wp_bind, wp_bind. eapply wp_mono_eq; [exact s_ct|]. intros ct Ect Hct. cbn [wp].
      split; [done|]. split; [done|]. split.
      - constructor; cbn [e_params]; try done.
      - constructor; cbn [fst snd e_ta e_cache e_igen e_fgen ta_matrix ta_pol ta_weights ca_ct]; try done.
        + by apply weights_resize.
        + unfold lens. cbn [ca_fb ca_out ca_sum]. rewrite !replicate_length. done.
        + exists ct. done.
        + apply (f_init_ok R g_ok f_ok HR).
    Qed.
    Lemma clf_init_spec (e : est) L nf : (1 <= L)%nat -> clf_has a (e_params e) ->
      P_number_of_labels (e_params e) = Ret (Z.of_nat L) -> P_number_of_features (e_params e) = Ret (Z.of_nat nf) ->
      weights_pre (ca_weighted a) (ca_max_weight a) (ta_weights (e_ta e)) -> clf_side L nf ->
      wp U V (clf_initialize S A e) (fun e' => e_params e' = e_params e /\ clf_fitted a L nf e').
    Proof. intros HL Hh HpL Hpf Hws [s_L s_T s_n s_fits s_nf s_ct]. by apply clf_init_run. Qed.

    Lemma clf_fit_online_spec (e : est) L nf X y epochs : clf_fitted a L nf e ->
      Forall (v_ok vw nf) X -> length y = length X -> Forall (fun v => 0 <= v < Z.of_nat L) y ->
      ((2 <= L)%nat \/ U) -> (T * 2 <= int_max \/ U) ->
      wp U V (clf_fit_online S A e X y epochs) (fun '(st, e') => st = S_OK /\ e_params e' = e_params e /\ clf_fitted a L nf e').
    Proof.
      intros (_ & Hd & Hc) HX Hly Hy HL HT2. unfold clf_fit_online. pose proof Hd as [Hh HpL Hpf HL1 Hcl].
      pose proof (P_opl a Ha _ Hh) as Eo. destruct Hh as [h_cl h_st h_s h_thr h_w h_mw h_b h_nj h_v h_ct h_tl _].
      pose proof (clf_n_bound a L nf Ha _ Hd) as [Hn _]. pose proof Ha as [_ Hacc _]. destruct Hacc.
      rewrite HpL, Eo, h_thr, h_mw, h_st, h_s, h_b, h_tl, h_nj, h_v. cbn [obind]. apply wp_bind. rewrite <- HN.
      eapply wp_mono; [by eapply (clf_epochs_spec g_ok f_ok HR S HS A vw U V w N I E1n E1p E2 Lw a L nf)|].
      intros [[[g f] s] c] Hc'. cbn [wp]. split; [done|]. split; [done|]. split; [done|]. split; done.
    Qed.

    (** data accepted by fit *)
    Definition clf_fit_ok (X : list smp) (y : list Z) : Prop := (exists nf, data_ok nf X y) /\ Forall (fun v => 0 <= v) y.

    Lemma check_labels_spec y : y <> [] ->
      (Forall (fun v => 0 <= v) y /\ check_labels y = Ret S_OK) \/ (~ Forall (fun v => 0 <= v) y /\ check_labels y = Ret S_VALUE_ERROR).
    Proof.
      intros Hne. destruct (list_min_spec y Hne) as (lo & E & Hin & HF). unfold check_labels. rewrite E. cbn [obind].
      destruct (Z.ltb_spec lo 0).
      - right. split; [|done]. intros H0. rewrite Forall_forall in H0. specialize (H0 _ Hin). lia.
      - left. split; [|done]. eapply Forall_impl; [exact HF|]. intros; cbn in *; lia.
    Qed.
    Lemma check_labels_max_spec y ml : y <> [] ->
      (Forall (fun v => 0 <= v <= ml) y /\ check_labels_max y ml = Ret S_OK) \/
      (~ Forall (fun v => 0 <= v <= ml) y /\ check_labels_max y ml = Ret S_VALUE_ERROR).
    Proof.
      intros Hne. destruct (list_min_spec y Hne) as (lo & E & Hin & HF). destruct (list_max_spec y Hne) as (hi & E' & Hin' & HF').
      unfold check_labels_max. rewrite E, E'. cbn [obind].
      rewrite Forall_forall in HF, HF'. setoid_rewrite Forall_forall.
      destruct (Z.ltb_spec lo 0); [right; split; [|done]; intros Hc; specialize (Hc _ Hin); lia|].
      destruct (Z.ltb_spec ml hi); [right; split; [|done]; intros Hc; specialize (Hc _ Hin'); lia|].
      left. split; [|done]. intros v Hv. specialize (HF v Hv). specialize (HF' v Hv). lia.
    Qed.

    (** fit *)
    Definition clf_fit_post (X : list smp) (y : list Z) (ml : Z) (e : est) : status * est -> Prop := fun '(st, e') =>
      (clf_fit_ok X y /\ st = S_OK /\ exists nf L, data_ok nf X y /\ Z.of_nat L = n_labels y ml /\
        e_params e' = clf_fit_params L nf (e_params e) /\ clf_fitted a L nf e' /\ ((2 <= L)%nat \/ U) /\ (T * 2 <= int_max \/ U)) \/
      (~ clf_fit_ok X y /\ st = S_VALUE_ERROR /\ e' = e).
    Lemma clf_fit_spec (e : est) X y ml epochs : Forall (v_phys vw) X -> clf_has a (e_params e) ->
      weights_pre (ca_weighted a) (ca_max_weight a) (ta_weights (e_ta e)) ->
      (Forall (fun v => int_min <= v < int_max) y \/ U) ->
      (forall nf, data_ok nf X y -> Forall (fun v => 0 <= v) y -> clf_side (Z.to_nat (n_labels y ml)) nf) ->
      wp U V (clf_fit S A e X y ml epochs) (clf_fit_post X y ml e).
    Proof.
      intros HX Hh Hws Hy Hside. unfold clf_fit.
      destruct (check_X_y_spec X y HX) as [(nf & Hd & E & Ef)|[Hno E]]; rewrite E; cbn [obind].
      2:{ rewrite decide_True by done. apply wp_ret. right. split; [|done]. intros [[nf H] _]. by apply (Hno nf). }
      rewrite decide_False by (intros H; by apply H).
      assert (y <> []) as Hyne. { intros ->. destruct Hd as [[Hne _] El]. destruct X; [done|]. cbn in El. lia. }
      destruct (list_max_spec y Hyne) as (hi & Ehi & Hin & HF). rewrite Ehi. cbn [obind].
      apply wp_bind, wp_ci32.
      2:{ destruct Hy as [Hy|]; [left|by right]. rewrite Forall_forall in Hy. specialize (Hy _ Hin). unfold int_min, int_max in *. lia. }
      intros _. destruct (check_labels_spec y Hyne) as [[H0 E1]|[H0 E1]]; rewrite E1; cbn [obind].
      2:{ rewrite decide_True by done. apply wp_ret. right. split; [|done]. by intros [_ H]. }
      rewrite decide_False by (intros H; by apply H). rewrite Ef. cbn [obind]. specialize (Hside nf Hd H0).
      assert (hi = max_label y) as ->. { rewrite list_max_label in Ehi by done. by injection Ehi. }
      destruct (max_label_spec y H0) as (Hm0 & HFm & _).
      fold (n_labels y ml). assert (1 <= n_labels y ml) as HL1 by (unfold n_labels; lia).
      set (L := Z.to_nat (n_labels y ml)) in *. assert (Z.of_nat L = n_labels y ml) as EL by (unfold L; lia). rewrite <- EL.
      apply wp_bind, wp_ci32; [intros _|destruct (sd_nf L nf Hside); [left; unfold int_min; lia|by right]].
      fold (clf_fit_params L nf (e_params e)). apply wp_bind.
      eapply wp_mono; [apply (clf_init_spec (with_params S A (clf_fit_params L nf (e_params e)) e) L nf)|].
      { lia. } { cbn [with_params e_params]. by apply clf_fit_params_has. }
      { cbn [with_params e_params]. unfold clf_fit_params. rewrite P_labels_insert_ne. apply P_labels_insert. }
      { cbn [with_params e_params]. apply P_features_insert. }
      { done. } { done. }
      cbn [with_params e_params]. intros e1 [Ep Hfit].
      eapply wp_mono; [apply (clf_fit_online_spec e1 L nf X y epochs Hfit)|].
      { apply Hd. } { apply Hd. }
      { rewrite Forall_forall in *. intros v Hv. specialize (H0 v Hv). specialize (HFm v Hv). cbn in *. unfold n_labels in EL. lia. }
      { apply Hside. } { apply Hside. }
      intros [st e'] (-> & Ep' & Hfit'). left. split; [split; [by exists nf|done]|]. split; [done|].
      exists nf, L. split; [done|]. split; [done|]. split; [congruence|]. split; [done|]. split; apply Hside.
    Qed.

    (** partial_fit of a fitted classifier *)
    Definition clf_more_ok (L nf : nat) (X : list smp) (y : list Z) : Prop := data_ok nf X y /\ Forall (fun v => 0 <= v < Z.of_nat L) y.
    Lemma clf_online_checked_spec (e : est) L nf X y ml epochs : Forall (v_phys vw) X -> clf_fitted a L nf e ->
      ((2 <= L)%nat \/ U) -> (T * 2 <= int_max \/ U) ->
      wp U V (clf_fit_online_checked S A e X y ml epochs) (fun '(st, e') =>
        (clf_more_ok L nf X y /\ st = S_OK /\ e_params e' = e_params e /\ clf_fitted a L nf e') \/
        (~ clf_more_ok L nf X y /\ st = S_VALUE_ERROR /\ e' = e)).
    Proof.
      intros HX Hfit HL HT2. pose proof Hfit as (_ & Hd & _). unfold clf_fit_online_checked.
      destruct (check_X_y_spec X y HX) as [(nf' & Hdat & E & Ef)|[Hno E]]; rewrite E; cbn [obind].
      2:{ rewrite decide_True by done. apply wp_ret. right. split; [|done]. intros [H _]. by apply (Hno nf). }
      rewrite decide_False by (intros H; by apply H). destruct Hd as [Hh HpL Hpf HL1 Hcl]. rewrite Hpf. cbn [obind].
      unfold check_X. rewrite Ef. cbn [obind].
      destruct (Z.eqb_spec (Z.of_nat nf') (Z.of_nat nf)) as [Enf|Enf].
      2:{ rewrite decide_True by done. apply wp_ret. right. split; [|done]. intros [H _]. apply Enf. f_equal. by eapply data_ok_nf. }
      assert (nf' = nf) as -> by lia. rewrite decide_False by (intros H; by apply H). rewrite HpL. cbn [obind].
      assert (4 <= ca_clauses a) as H4. { destruct (clf_opl_facts a Ha) as (Ec & _ & _ & ?). lia. }
      rewrite ci32_ret by (unfold int_min, int_max in *; nia). cbn [obind].
      assert (y <> []) as Hyne. { intros ->. destruct Hdat as [[Hne _] El]. destruct X; [done|]. cbn in El. lia. }
      destruct (check_labels_max_spec y (Z.of_nat L - 1) Hyne) as [[H0 E1]|[H0 E1]]; rewrite E1; cbn [obind].
      2:{ rewrite decide_True by done. apply wp_ret. right. split; [|done]. intros [_ H]. apply H0. eapply Forall_impl; [exact H|].
          intros; cbn in *; lia. }
      rewrite decide_False by (intros H; by apply H).
      assert (Forall (fun v => 0 <= v < Z.of_nat L) y) as HyL by (eapply Forall_impl; [exact H0|]; intros; cbn in *; lia).
      eapply wp_mono; [by apply (clf_fit_online_spec e L nf X y epochs Hfit); try apply Hdat|].
      intros [st e'] (-> & Ep & Hf'). left. done.
    Qed.
    Lemma clf_fitted_true (e : est) L nf : clf_fitted a L nf e -> is_fitted A (e_ta e) = true.
    Proof. intros H. by eapply (clf_is_fitted g_ok f_ok S A vw U V w N I E1n E1p E2 Lw). Qed.

    Lemma clf_keep_fitted (e : est) L nf c : clf_fitted a L nf e -> keep S (e_cache e) c -> clf_fitted a L nf (with_cache S A c e).
    Proof.
      intros (H1 & H2 & [HI Hwt Hl Hct Hr Hg Hf]) K. split; [done|]. split; [done|]. cbn [fst snd] in *.
      pose proof (keep_lens S _ _ _ _ K Hl). destruct K as (K1 & K2 & _). constructor; cbn [fst snd with_cache e_ta e_cache e_igen e_fgen]; try done.
      - by rewrite K2. - by rewrite K2.
    Qed.
    (** the loops of evaluate: only scratch space changes, whatever the arguments *)
    Lemma evaluate_keep (e : est) X y r e' : clf_evaluate S A e X y = Ret (r, e') -> exists c, e' = with_cache S A c e /\ keep S (e_cache e) c.
    Proof.
      unfold clf_evaluate. intros H.
      do 6 (apply obind_ret_inv in H as (? & _ & H)). apply obind_ret_inv in H as ([er c] & E & [= _ <-]).
      exists c. split; [done|].
      eapply (ofold_pres (fun '(_, c) => keep S (e_cache e) c)) in E; [done|done|].
      intros i [er1 c1] [er2 c2] _ K Hb. apply obind_ret_inv in Hb as (xi & _ & Hb). apply obind_ret_inv in Hb as (c3 & E3 & Hb).
      apply obind_ret_inv in Hb as (yi & _ & Hb). apply obind_ret_inv in Hb as (er3 & _ & [= _ <-]).
      apply label_votes_keep in E3. by eapply keep_trans.
    Qed.

  End Clf.

  (** ** Regressor *)
  Section Reg.
    Context (a : reg_args) (Ha : reg_valid a) (HN : N = ra_states a) (Hw : w = width_of (ra_counting a) (ra_states a)).
    Notation n := (reg_n a).
    Notation T := (ra_threshold a).
    Definition reg_hits : Prop := forall loss, make_loss_fn (ra_loss a) (ra_C1 a) = Ret loss ->
      hits_good g_ok U V a (ra_box_muller a) loss.
    Record reg_side (nf : nat) : Prop := {
      rsd_fits : v_fits vw w (2 * n) nf \/ U;
      rsd_nf : Z.of_nat nf <= int_max \/ U;
      rsd_ct : ct_good (ra_s a) nf;
      rsd_hits : reg_hits }.
    Lemma reg_init_spec (e : est) nf : reg_has a (e_params e) -> P_number_of_features (e_params e) = Ret (Z.of_nat nf) ->
      weights_pre (ra_weighted a) (ra_max_weight a) (ta_weights (e_ta e)) -> reg_side nf ->
      wp U V (reg_initialize S A e) (fun e' => e_params e' = e_params e /\ reg_fitted a nf e').
    Proof.
      intros Hh Hpf Hws [s_fits s_nf s_ct _]. unfold reg_initialize, initialize_state.
      pose proof (P_reg_n a Ha _ Hh) as Eout.
      pose proof Hh as Hh'. destruct Hh' as [h_cl h_st h_s h_thr h_w h_mw h_b h_nj h_v h_ct h_tl h_l h_c h_bm (z & Ez & h_seed)].
      destruct (reg_n_facts a Ha) as (Ecl & Eq & Hn1). pose proof Ha as [_ Hacc _]. destruct Hacc.
      rewrite h_v, h_seed, h_st, h_cl, Eout, Hpf, h_ct, h_w. cbn [obind]. rewrite !Nat2Z.id.
      replace (Z.to_nat (ra_clauses a)) with (2 * n)%nat by lia.
      fold (width_of (ra_counting a) (ra_states a)). rewrite <- Hw.
      apply wp_bind. eapply wp_mono; [apply (l_init _ _ _ _ _ _ _ _ _ _ _ Lw n nf (g_init R (wrap_s 32 z)))|].
      { apply (g_init_ok R g_ok f_ok HR). } { lia. } { exact s_fits. }
      intros [[m p] g'] [HI Hg']. unfold reg_cache_reset. rewrite Eout, h_s, Hpf. cbn [obind]. rewrite !Nat2Z.id.
      apply wp_bind, wp_bind. eapply wp_mono_eq; [exact s_ct|]. intros ct Ect Hct. cbn [wp].
      split; [done|]. split; [done|]. split.
      - constructor; cbn [e_params]; try done.
      - constructor; cbn [fst snd e_ta e_cache e_igen e_fgen ta_matrix ta_pol ta_weights ca_ct ca_out]; try done.
        + by apply weights_resize.
        + split; [by rewrite replicate_length|done].
        + exists ct. done.
    Qed.
    Lemma make_loss_total : exists loss, make_loss_fn (ra_loss a) (ra_C1 a) = Ret loss.
    Proof.
      destruct Ha as [_ [] _]. unfold make_loss_fn. destruct rv_loss as [->|[->|[->|[->|[->| ->]]]]]; eexists; reflexivity.
    Qed.
    Lemma reg_fit_online_spec (e : est) nf X y epochs : reg_fitted a nf e ->
      Forall (v_ok vw nf) X -> length y = length X -> Forall (fun v => 0 <= v <= T) y -> reg_hits ->
      wp U V (reg_fit_online S A e X y epochs) (fun '(st, e') => st = S_OK /\ e_params e' = e_params e /\ reg_fitted a nf e').
    Proof.
      intros (_ & Hd & Hc) HX Hly Hy Hhits. unfold reg_fit_online. pose proof Hd as [Hh Hpf].
      pose proof (P_reg_n a Ha _ Hh) as Eo. destruct Hh as [h_cl h_st h_s h_thr h_w h_mw h_b h_nj h_v h_ct h_tl h_l h_c h_bm _].
      destruct make_loss_total as [loss El]. pose proof Ha as [_ Hacc _]. destruct Hacc.
      rewrite Eo, h_thr, h_mw, h_st, h_s, h_b, h_tl, h_nj, h_v, h_l, h_c. cbn [obind]. rewrite El. cbn [obind]. rewrite h_bm. cbn [obind].
      apply wp_bind. rewrite <- HN.
      eapply wp_mono; [eapply (reg_epochs_spec g_ok f_ok HR S HS A vw U V w N I E1n E1p E2 Lw a nf Ha); auto|].
      intros [[g s] c] Hc'. cbn [wp]. split; [done|]. split; [done|]. split; [done|]. split; done.
    Qed.

    Definition reg_fit_ok (X : list smp) (y : list Z) : Prop := (exists nf, data_ok nf X y) /\ Forall (fun v => 0 <= v <= T) y.
    Lemma check_response_spec y : (Forall (fun v => 0 <= v <= T) y /\ check_response_y y T = S_OK) \/
      (~ Forall (fun v => 0 <= v <= T) y /\ check_response_y y T = S_VALUE_ERROR).
    Proof.
      unfold check_response_y. assert (forallb (fun v => (0 <=? v) && (v <=? T)) y = true <-> Forall (fun v => 0 <= v <= T) y) as Hb.
      { rewrite <- Forall_forallb. apply Forall_iff. intros v. rewrite andb_true_iff, !Z.leb_le. done. }
      destruct (forallb _ y); [left; split; [by apply Hb|done]|right; split; [|done]]. intros H%Hb. done.
    Qed.
    Definition reg_fit_post (X : list smp) (y : list Z) (e : est) : status * est -> Prop := fun '(st, e') =>
      (reg_fit_ok X y /\ st = S_OK /\ exists nf, data_ok nf X y /\ e_params e' = reg_fit_params nf (e_params e) /\ reg_fitted a nf e' /\ reg_hits) \/
      (~ reg_fit_ok X y /\ st = S_VALUE_ERROR /\ e' = e).
    Lemma reg_fit_spec (e : est) X y epochs : Forall (v_phys vw) X -> reg_has a (e_params e) ->
      weights_pre (ra_weighted a) (ra_max_weight a) (ta_weights (e_ta e)) ->
      (forall nf, data_ok nf X y -> reg_side nf) ->
      wp U V (reg_fit S A e X y epochs) (reg_fit_post X y e).
    Proof.
      intros HX Hh Hws Hside. unfold reg_fit.
      destruct (check_X_y_spec X y HX) as [(nf & Hd & E & Ef)|[Hno E]]; rewrite E; cbn [obind].
      2:{ rewrite decide_True by done. apply wp_ret. right. split; [|done]. intros [[nf H] _]. by apply (Hno nf). }
      rewrite decide_False by (intros H; by apply H). rewrite (rh_threshold _ _ Hh). cbn [obind].
      destruct (check_response_spec y) as [[H0 E1]|[H0 E1]]; rewrite E1.
      2:{ rewrite decide_True by done. apply wp_ret. right. split; [|done]. by intros [_ H]. }
      rewrite decide_False by (intros H; by apply H). rewrite Ef. cbn [obind]. specialize (Hside nf Hd).
      apply wp_bind, wp_ci32; [intros _|destruct (rsd_nf nf Hside); [left; unfold int_min; lia|by right]].
      fold (reg_fit_params nf (e_params e)). apply wp_bind.
      eapply wp_mono; [apply (reg_init_spec (with_params S A (reg_fit_params nf (e_params e)) e) nf)|].
      { cbn [with_params e_params]. by apply reg_fit_params_has. }
      { cbn [with_params e_params]. apply P_features_insert. }
      { done. } { done. }
      cbn [with_params e_params]. intros e1 [Ep Hfit].
      eapply wp_mono; [apply (reg_fit_online_spec e1 nf X y epochs Hfit)|].
      { apply Hd. } { apply Hd. } { done. } { apply Hside. }
      intros [st e'] (-> & Ep' & Hfit'). left. split; [split; [by exists nf|done]|]. split; [done|].
      exists nf. split; [done|]. split; [congruence|]. split; [done|apply Hside].
    Qed.
    Definition reg_more_ok (nf : nat) (X : list smp) (y : list Z) : Prop := data_ok nf X y /\ Forall (fun v => 0 <= v <= T) y.
    Lemma reg_online_checked_spec (e : est) nf X y epochs : Forall (v_phys vw) X -> reg_fitted a nf e -> reg_hits ->
      wp U V (reg_fit_online_checked S A e X y epochs) (fun '(st, e') =>
        (reg_more_ok nf X y /\ st = S_OK /\ e_params e' = e_params e /\ reg_fitted a nf e') \/
        (~ reg_more_ok nf X y /\ st = S_VALUE_ERROR /\ e' = e)).
    Proof.
      intros HX Hfit Hhits. pose proof Hfit as (_ & Hd & _). unfold reg_fit_online_checked.
      destruct (check_X_y_spec X y HX) as [(nf' & Hdat & E & Ef)|[Hno E]]; rewrite E; cbn [obind].
      2:{ rewrite decide_True by done. apply wp_ret. right. split; [|done]. intros [H _]. by apply (Hno nf). }
      rewrite decide_False by (intros H; by apply H). destruct Hd as [Hh Hpf]. rewrite Hpf. cbn [obind].
      unfold check_X. rewrite Ef. cbn [obind].
      destruct (Z.eqb_spec (Z.of_nat nf') (Z.of_nat nf)) as [Enf|Enf].
      2:{ rewrite decide_True by done. apply wp_ret. right. split; [|done]. intros [H _]. apply Enf. f_equal. by eapply data_ok_nf. }
      assert (nf' = nf) as -> by lia. rewrite decide_False by (intros H; by apply H). rewrite (rh_threshold _ _ Hh). cbn [obind].
      destruct (check_response_spec y) as [[H0 E1]|[H0 E1]]; rewrite E1.
      2:{ rewrite decide_True by done. apply wp_ret. right. split; [|done]. by intros [_ H]. }
      rewrite decide_False by (intros H; by apply H).
      eapply wp_mono; [by apply (reg_fit_online_spec e nf X y epochs Hfit); try apply Hdat|].
      intros [st e'] (-> & Ep & Hf'). left. done.
    Qed.
    Lemma reg_fitted_true (e : est) nf : reg_fitted a nf e -> is_fitted A (e_ta e) = true.
    Proof. intros H. by eapply (reg_is_fitted g_ok S A vw U V w N I E1n E1p E2 Lw). Qed.

    Lemma reg_keep_fitted (e : est) nf c : reg_fitted a nf e -> keep S (e_cache e) c -> reg_fitted a nf (with_cache S A c e).
    Proof.
      intros (H1 & H2 & [HI Hwt Hl Hct Hr Hg]) K. split; [done|]. split; [done|]. cbn [fst snd] in *.
      destruct K as (K1 & K2 & K3 & K4). constructor; cbn [fst snd with_cache e_ta e_cache e_igen e_fgen]; try done.
      - destruct Hl as (Hl & Hl1 & Hl2). rewrite K1. split; [congruence|]. split; [done|]. apply nil_length_inv. rewrite K4, Hl2. done.
      - by rewrite K2. - by rewrite K2.
    Qed.
  End Reg.
End Fit.
