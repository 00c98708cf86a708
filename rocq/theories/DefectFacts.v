(** * Where training is undefined although parameters and data are accepted; what a refit keeps; evaluate outside its contract. *)
From Verif Require Import HistFacts TotalFacts TotalProps TrainFacts.
From stdpp Require Import list.
Local Open Scope Z_scope.

Section Defects.
  Context {R : rnd} (g_ok : eG R -> Prop) (f_ok : eF R -> Prop) (HR : rnd_ok R g_ok f_ok).
  Context (S : sch) (HS : sch_ok S).
  Context (A : algo R) (vw : aview A) (HA : tsetlini_algo R A vw).
  Notation est := (est (a_pol A) (eS S) (eG R) (eF R)).

  Section Init.
    Context (I : nat -> nat -> nmatrix -> a_pol A -> Prop).
    Context (E1n : nat -> coin_tosser -> a_smp A -> nat -> amp A -> amp A -> Prop).
    Context (E1p : bool -> nat -> coin_tosser -> a_smp A -> nat -> amp A -> amp A -> Prop).
    Context (E2 : nat -> a_smp A -> nat -> amp A -> amp A -> Prop).
    Context (a : clf_args) (Ha : clf_valid a).
    Context (Lw : forall U V, laws A g_ok vw U V (width_of (ca_counting a) (ca_states a)) (ca_states a) I E1n E1p E2).

  (** fit of valid data is initialisation followed by online training *)
  Lemma clf_fit_unfold (e : est) nf X y ml n : good_samples A vw nf X y -> Forall (fun v => 0 <= v < int_max) y -> Z.of_nat nf <= int_max ->
    clf_fit S A e X y ml n =
      let* e1 := clf_initialize S A (with_params S A (clf_fit_params (Z.to_nat (n_labels y ml)) nf (e_params e)) e) in clf_fit_online S A e1 X y n.
  Proof.
    intros Hg Hy Hnf. pose proof (good_data g_ok f_ok HR A vw HA nf X y Hg) as [Hd _]. pose proof Hg as (Hne & Hl & Hph & Hok).
    unfold clf_fit. destruct (check_X_y_spec g_ok A vw True True _ _ I E1n E1p E2 (Lw True True) X y Hph) as [(nf' & Hd' & E & Ef)|[Hno E]]; [|by destruct (Hno nf)].
    pose proof (data_ok_nf g_ok A vw True True _ _ I E1n E1p E2 (Lw True True) nf nf' X y Hd Hd') as <-. rewrite E. cbn [obind]. rewrite decide_False by (intros H; by apply H).
    assert (y <> []) as Hyne. { intros ->. destruct X; [done|]. cbn in Hl. lia. }
    assert (Forall (fun v => 0 <= v) y) as Hy0. { eapply Forall_impl; [exact Hy|]. cbn. lia. }
    rewrite list_max_label by done. cbn [obind]. destruct (max_label_spec y Hy0) as (Hm0 & HFm & Hin).
    specialize (Hin Hyne). rewrite Forall_forall in Hy. pose proof (Hy _ Hin) as Hm. rewrite ci32_ret by (unfold int_min; lia). cbn [obind].
    destruct (check_labels_spec y Hyne) as [[H0 E1]|[H0 E1]]; rewrite E1; cbn [obind]; [|done].
    rewrite decide_False by (intros H; by apply H). rewrite Ef. cbn [obind]. rewrite ci32_ret by (unfold int_min; lia). cbn [obind].
    unfold clf_fit_params. unfold n_labels. rewrite Z2Nat.id by lia. done.
  Qed.

    Lemma clf_init_returns p os rs (e : est) L nf : clf_created a p -> clf_history S A vw p os rs e ->
      (1 <= L)%nat -> Z.of_nat nf <= int_max -> sizes_fit (Z.of_nat L * ca_clauses a) (Z.of_nat nf) ->
      exists e1, clf_initialize S A (with_params S A (clf_fit_params L nf (e_params e)) e) = Ret e1 /\
        clf_fitted g_ok f_ok S A True True I a L nf e1.
    Proof.
      intros Hc Hh HL Hnf Hsz.
      pose proof (clf_history_at g_ok f_ok HR S HS A vw _ _ I E1n E1p E2 Lw a p os rs e Hc eq_refl eq_refl Hh) as Hat.
      destruct (clf_at_has g_ok f_ok S A True True I a p _ e (cc_has _ _ Hc) Hat) as (Hp & Hw & _).
      pose proof Ha as [Hty Hac _]. pose proof (cva_typed _ Ha) as Htyp. destruct (clf_opl_facts a Ha) as (Ecl & _ & _ & Hopl).
      assert (Z.of_nat L * ca_clauses a <= int_max) as Hn. { unfold sizes_fit in Hsz. unfold int_max. nia. }
      assert (v_fits vw (width_of (ca_counting a) (ca_states a)) (2 * (L * clf_opl a)) nf) as Hf.
      { apply (v_fits_simple A vw _ _ _ HA); [apply width_cases|nia|].
        replace (Z.of_nat (2 * (L * clf_opl a))) with (Z.of_nat L * ca_clauses a) by (rewrite Ecl; lia). done. }
      set (e0 := with_params S A (clf_fit_params L nf (e_params e)) e).
      assert (clf_has a (e_params e0)) as Hp' by (by apply clf_fit_params_has).
      assert (P_number_of_labels (e_params e0) = Ret (Z.of_nat L)) as HpL.
      { cbn [e0 with_params e_params]. unfold clf_fit_params. rewrite P_labels_insert_ne. apply P_labels_insert. }
      assert (P_number_of_features (e_params e0) = Ret (Z.of_nat nf)) as Hpf by apply P_features_insert.
      pose proof (clf_init_run g_ok f_ok HR S A vw True True _ _ I E1n E1p E2 (Lw True True) a Ha eq_refl e0 L nf HL Hp' HpL Hpf Hw
        (or_intror Logic.I) (or_intror Logic.I) (ct_good_true g_ok _ _)) as H2.
      cut (exists e1, clf_initialize S A e0 = Ret e1).
      { intros (e1 & E). rewrite E in H2. exists e1. split; [done|]. apply H2. }
      clear H2. unfold clf_initialize, initialize_state. pose proof Hp' as Hh'.
      destruct Hh' as [h_cl h_st h_s h_thr h_w h_mw h_b h_nj h_v h_ct h_tl (z & Ez & h_seed)].
      rewrite h_v, h_seed, h_st. cbn [obind]. unfold P_clf_clauses. rewrite HpL, h_cl. cbn [obind].
      rewrite ci32_ret by (unfold int_min; nia). cbn [obind].
      assert (P_clf_outputs (e_params e0) = Ret (Z.of_nat (L * clf_opl a))) as Eout.
      { unfold P_clf_outputs. rewrite HpL, (P_opl a Ha _ Hp'). cbn [obind]. rewrite ci32_ret by (unfold int_min; nia). f_equal. lia. }
      rewrite Eout, Hpf, h_ct, h_w. cbn [obind]. rewrite !Nat2Z.id.
      replace (Z.to_nat (Z.of_nat L * ca_clauses a)) with (2 * (L * clf_opl a))%nat by lia.
      fold (width_of (ca_counting a) (ca_states a)).
      pose proof (l_init _ _ _ _ _ _ _ _ _ _ _ (Lw False False) (L * clf_opl a) nf (g_init R (wrap_s 32 z))) as Hi.
      specialize (Hi (g_init_ok R g_ok f_ok HR _) ltac:(nia) (or_introl Hf)).
      destruct (a_init A _ _ nf _) as [[[m pl] g']| | |]; try done. cbn [obind].
      unfold clf_cache_reset. rewrite Eout, HpL, h_s, Hpf. cbn [obind].
      pose proof (ct_good_safe g_ok (ca_s a) nf (ct_real _ Htyp) (cv_s _ Hac) Hnf) as Hct. unfold ct_good in Hct.
      destruct (ct_make _ _) as [ct| | |] eqn:Ect; try done; cbn [obind]; [by eexists|].
      exfalso. revert Ect. clear. unfold ct_make. intros E.
      assert (forall x, to_u32 x <> OutOfFuel) as Hu by (intros []; cbn [to_u32]; [done..|]; cbv zeta; by case_match).
      destruct (to_u32 _) eqn:Eu; cbn [obind] in E; try done; [|by apply Hu in Eu]. clear Eu.
      destruct (to_u32 _) eqn:Eu; cbn [obind] in E; try done. by apply Hu in Eu.
    Qed.

    (** what online training reads from the parameters of a fitted classifier *)
    Lemma clf_fit_online_unfold (e : est) L nf X y n : clf_fitted g_ok f_ok S A True True I a L nf e ->
      clf_fit_online S A e X y n =
        let* '(g, f, s, c) := ofor 0 n (e_igen e, e_fgen e, e_ta e, e_cache e)
          (fun _ st => clf_epoch S A (e_params e) X y (Z.of_nat L) (Z.of_nat (clf_opl a)) (ca_threshold a) (ca_max_weight a) (ca_states a)
                         (ca_boost a) (ca_tile a) (ca_n_jobs a) st) in
        Ret (S_OK, Est (e_params e) s c g f).
    Proof.
      intros (_ & Hd & _). unfold clf_fit_online. pose proof Hd as [Hh HpL _ _ _]. pose proof (P_opl a Ha _ Hh) as Eo.
      destruct Hh as [h_cl h_st h_s h_thr h_w h_mw h_b h_nj h_v h_ct h_tl _].
      rewrite HpL, Eo, h_thr, h_mw, h_st, h_s, h_b, h_tl, h_nj, h_v. cbn [obind]. done.
    Qed.

    (** one label only *)
    Lemma one_label_undefined p os rs (e : est) nf X y ml n : clf_created a p -> clf_history S A vw p os rs e ->
      good_samples A vw nf X y -> Forall (fun v => v = 0) y -> ml <= 1 -> Z.of_nat nf <= int_max ->
      sizes_fit (ca_clauses a) (Z.of_nat nf) -> (0 < n)%nat ->
      clf_fit S A e X y ml n = UB DivByZero.
    Proof.
      intros Hc Hh Hg Hy Hml Hnf Hsz Hn.
      assert (Forall (fun v => 0 <= v < int_max) y) as Hy' by (eapply Forall_impl; [exact Hy|]; cbn; intros v ->; done).
      rewrite (clf_fit_unfold e nf X y ml n Hg Hy' Hnf).
      assert (n_labels y ml = 1) as EL.
      { unfold n_labels. assert (max_label y = 0) as ->; [|lia]. clear -Hy. induction Hy as [|v y -> _ IH]; [done|]. change (Z.max 0 (max_label y) = 0). by rewrite IH. }
      rewrite EL. change (Z.to_nat 1) with 1%nat.
      destruct (clf_init_returns p os rs e 1 nf Hc Hh) as (e1 & -> & Hf); [lia|done|by rewrite Z.mul_1_l|]. cbn [obind].
      rewrite (clf_fit_online_unfold e1 1 nf X y n Hf).
      destruct n as [|n]; [lia|]. unfold ofor. cbn [seq ofold].
      destruct y as [|v y]; [destruct Hg as (? & Hl & _); destruct X; [done|]; cbn in Hl; lia|].
      apply Forall_cons in Hy as [-> _]. unfold clf_epoch, generate_opposite_y. cbn [ofold]. unfold opposite_label.
      change (ci32 (0 + 1)) with (Ret 1). cbn [obind]. destruct (g_next R (e_igen e1)) as [r g1]. done.
    Qed.

    (** doubling a large threshold *)
    Lemma update_overflows L nf x (t o : nat) nj tile g f s c :
      clf_core g_ok f_ok S A True True I a L nf (g, f, s, c) -> Z.of_nat (L * clf_opl a) <= int_max ->
      v_ok vw nf x -> (t < L)%nat -> (o < L)%nat -> t <> o -> tile_known tile -> 1073741824 <= ca_threshold a ->
      classifier_update S A x (Z.of_nat t) (Z.of_nat o) (Z.of_nat (clf_opl a)) (ca_threshold a) (ca_states a) (ca_boost a) (ca_max_weight a) nj tile (g, f, s, c)
        = UB SignedOverflow.
    Proof.
      intros Hcore Hn Hx Ht Ho Hne Htile HT. pose proof Hcore as [HI Hw (Lf & Lo & Ls) Hct Hrate Hg Hf]. cbn [fst snd] in *.
      pose proof Ha as [Hty Hac _]. destruct Hty, Hac. destruct (clf_opl_facts a Ha) as (_ & _ & Hev & Hopl).
      set (opl := clf_opl a) in *. set (T := ca_threshold a) in *.
      assert ((t * opl + opl <= L * opl)%nat /\ (o * opl + opl <= L * opl)%nat) as [Bt Bo] by nia.
      unfold classifier_update.
      rewrite (clause_range_spec t opl) by lia. cbn [obind].
      destruct (calc_output_spec g_ok S HS A vw True True _ _ I E1n E1p E2 (Lw True True) (L * opl) nf x c s (t * opl) (t * opl + opl) nj tile)
        as (c1 & Ec1 & F1 & S1 & K1 & L1 & O1); [done|done|done|lia|lia|]. rewrite Ec1. cbn [obind].
      rewrite (clause_range_spec o opl) by lia. cbn [obind].
      destruct (calc_output_spec g_ok S HS A vw True True _ _ I E1n E1p E2 (Lw True True) (L * opl) nf x c1 s (o * opl) (o * opl + opl) nj tile)
        as (c2 & Ec2 & F2 & S2 & K2 & L2 & O2); [done|done|done|lia|lia|]. rewrite Ec2. cbn [obind].
      assert (forall j, j ∈ seq (t * opl) opl \/ j ∈ seq (o * opl) opl -> ca_out c2 !! j = Some (b2z (fires vw nf s x j))) as Hout.
      { intros j Hj. rewrite !elem_of_seq in Hj. rewrite O2. destruct (decide (o * opl <= j < o * opl + opl)%nat); [done|].
        rewrite O1. rewrite decide_True by lia. done. }
      rewrite (sum_label_spec (ca_weighted a) (ca_max_weight a) L opl t T (ca_out c2) (ta_weights s) (ca_sum c2)
        (fun j => fires vw nf s x (t * opl + j))); [|done|split; [done|apply ct_maxw]|done|done|done|lia|congruence|].
      2:{ intros j Hj. apply Hout. left. apply elem_of_seq. lia. }
      cbn [obind].
      rewrite (sum_label_spec (ca_weighted a) (ca_max_weight a) L opl o T (ca_out c2) (ta_weights s) _
        (fun j => fires vw nf s x (o * opl + j))); [|done|split; [done|apply ct_maxw]|done|done|done|lia|rewrite insert_length; congruence|].
      2:{ intros j Hj. apply Hout. right. apply elem_of_seq. lia. }
      cbn [obind]. match goal with |- context [vgetZ ?l (Z.of_nat t)] => set (ls := l) end.
      assert (length ls = L) as Els by (unfold ls; rewrite !insert_length; congruence).
      assert (forall k, (k < L)%nat -> exists v, vgetZ ls (Z.of_nat k) = Ret v) as Hv.
      { intros k Hk. unfold vgetZ. rewrite (proj2 (Z.ltb_ge (Z.of_nat k) 0)) by lia. rewrite Nat2Z.id.
        destruct (vget_ret_lt ls k) as (v & _ & ->); [lia|]. by exists v. }
      destruct (Hv t Ht) as (v1 & ->). destruct (Hv o Ho) as (v2 & ->). cbn [obind].
      unfold calc_feedback. unfold ci32 at 1, in_i32. rewrite (proj2 (andb_false_iff _ _)); [done|]. right. apply Z.leb_gt. unfold int_max. lia.
    Qed.

    Lemma big_threshold_undefined p os rs (e : est) nf X y ml n : clf_created a p -> clf_history S A vw p os rs e ->
      good_samples A vw nf X y -> Forall (fun v => 0 <= v < int_max) y -> 2 <= n_labels y ml -> Z.of_nat nf <= int_max ->
      sizes_fit (n_labels y ml * ca_clauses a) (Z.of_nat nf) -> (0 < n)%nat -> 1073741824 <= ca_threshold a ->
      clf_fit S A e X y ml n = UB SignedOverflow.
    Proof.
      intros Hc Hh Hg Hy HL Hnf Hsz Hn HT. rewrite (clf_fit_unfold e nf X y ml n Hg Hy Hnf).
      set (L := Z.to_nat (n_labels y ml)). assert (Z.of_nat L = n_labels y ml) as EL by (unfold L; lia).
      destruct (clf_init_returns p os rs e L nf Hc Hh) as (e1 & -> & Hf); [lia|done|by rewrite EL|]. cbn [obind].
      rewrite (clf_fit_online_unfold e1 L nf X y n Hf). destruct Hf as (_ & Hd & Hcore).
      pose proof (clf_n_bound a L nf Ha _ Hd) as [Hb _].
      destruct n as [|n]; [lia|]. unfold ofor. cbn [seq ofold]. unfold clf_epoch at 1.
      pose proof Hcore as [HI Hw Hl Hct Hrate HgG HfF]. cbn [fst snd] in *.
      assert (Forall (fun v => 0 <= v < Z.of_nat L) y) as HyL.
      { assert (Forall (fun v => 0 <= v) y) as Hy0 by (eapply Forall_impl; [exact Hy|]; cbn; lia).
        destruct (max_label_spec y Hy0) as (_ & HFm & _). rewrite Forall_forall in *. intros v Hv. specialize (Hy v Hv). specialize (HFm v Hv).
        unfold n_labels in EL. cbn in *. lia. }
      assert (Z.of_nat L <= int_max) as HLi. { pose proof (cd_n _ _ _ _ Hd) as H1. pose proof Ha as [_ Hac _]. destruct (cv_clauses _ Hac). nia. }
      pose proof (generate_opposite_spec g_ok f_ok HR False False y L (e_igen e1) HyL HLi ltac:(left; lia) HgG) as Ho.
      destruct (generate_opposite_y y (Z.of_nat L) (e_igen e1)) as [[oy g1]| | |]; try done. destruct Ho as [Hoy Hg1]. cbn [obind].
      destruct (shuf_ok R g_ok f_ok HR g1 (length X) Hg1) as [Hperm Hg2].
      destruct (shuf R g1 (length X)) as [ix g2]. cbn [fst snd] in *.
      destruct Hg as (HneX & HlX & Hph & Hok).
      destruct ix as [|i ix]. { exfalso. apply Permutation_length in Hperm. rewrite seq_length in Hperm. destruct X; [done|]. cbn in Hperm. lia. }
      assert (i < length X)%nat as Hi. { assert (i ∈ seq 0 (length X)) as H1 by (rewrite <- Hperm; left). apply elem_of_seq in H1. lia. }
      cbn [ofold]. destruct (vget_ret_lt X i) as (x & Ex & ->); [done|]. destruct (vget_ret_lt y i) as (yi & Ey & ->); [lia|]. cbn [obind].
      destruct (vget_ret_lt oy i) as (oi & Eo & ->). { apply Forall2_length in Hoy. lia. } cbn [obind].
      destruct (Forall2_lookup_lr _ _ _ _ _ _ Hoy Ey Eo) as [(ol & -> & Hol) Hne].
      assert (0 <= yi < Z.of_nat L) as Hyi by (by eapply Forall_lookup_1 in HyL).
      assert (exists t, yi = Z.of_nat t) as (t & ->) by (exists (Z.to_nat yi); lia).
      assert (t <> ol) as Hto by (intros ->; by apply Hne).
      rewrite (update_overflows L nf x t ol (ca_n_jobs a) (ca_tile a) g2 (e_fgen e1) (e_ta e1) (e_cache e1)); [done|by constructor|done| |lia|lia|done| |done].
      - by eapply Forall_lookup_1 in Hok.
      - by destruct Ha as [_ [] _].
    Qed.

    (** a fit keeps the weights that are there, cut or extended with zeros *)
    Lemma init_weights (e e1 : est) L : clf_has a (e_params e) -> P_clf_outputs (e_params e) = Ret (Z.of_nat (L * clf_opl a)) ->
      clf_initialize S A e = Ret e1 ->
      ta_weights (e_ta e1) = if ca_weighted a then resize0 (L * clf_opl a) (ta_weights (e_ta e)) else ta_weights (e_ta e).
    Proof.
      intros Hp Eout E. unfold clf_initialize, initialize_state in E. rewrite Eout, (ch_weighted _ _ Hp) in E.
      do 3 apply obind_ret_inv in E as (? & _ & E). apply obind_ret_inv in E as (? & _ & E). cbn [obind] in E.
      do 2 apply obind_ret_inv in E as (? & _ & E). cbn [obind] in E. apply obind_ret_inv in E as ([[m pl] g] & _ & E).
      apply obind_ret_inv in E as (c & _ & E). injection E as <-. cbn [e_ta ta_weights]. rewrite Nat2Z.id. done.
    Qed.
    Lemma refit_weights p os rs (e : est) nf X y ml : clf_created a p -> clf_history S A vw p os rs e ->
      good_samples A vw nf X y -> Forall (fun v => 0 <= v < int_max) y -> Z.of_nat nf <= int_max ->
      sizes_fit (n_labels y ml * ca_clauses a) (Z.of_nat nf) ->
      exists e', clf_fit S A e X y ml 0 = Ret (S_OK, e') /\ clf_initialize S A (with_params S A (clf_fit_params (Z.to_nat (n_labels y ml)) nf (e_params e)) e) = Ret e' /\
        ta_weights (e_ta e') = if ca_weighted a then resize0 (Z.to_nat (n_labels y ml) * clf_opl a) (ta_weights (e_ta e)) else ta_weights (e_ta e).
    Proof.
      intros Hc Hh Hg Hy Hnf Hsz. rewrite (clf_fit_unfold e nf X y ml 0 Hg Hy Hnf).
      assert (1 <= n_labels y ml) as HL.
      { assert (Forall (fun v => 0 <= v) y) as Hy0 by (eapply Forall_impl; [exact Hy|]; cbn; lia).
        destruct (max_label_spec y Hy0) as (H0 & _). unfold n_labels. lia. }
      set (L := Z.to_nat (n_labels y ml)). assert (Z.of_nat L = n_labels y ml) as EL by (unfold L; lia).
      destruct (clf_init_returns p os rs e L nf Hc Hh) as (e1 & E1 & Hf); [lia|done|by rewrite EL|]. rewrite E1. cbn [obind].
      rewrite (clf_fit_online_unfold e1 L nf X y 0 Hf). unfold ofor. cbn [seq ofold obind].
      exists e1. split; [by destruct e1|]. split; [done|].
      pose proof (clf_history_at g_ok f_ok HR S HS A vw _ _ I E1n E1p E2 Lw a p os rs e Hc eq_refl eq_refl Hh) as Hat.
      destruct (clf_at_has g_ok f_ok S A True True I a p _ e (cc_has _ _ Hc) Hat) as (Hp & Hw & _).
      refine (init_weights _ e1 L _ _ E1); [by apply clf_fit_params_has|].
      cbn [with_params e_params].
      assert (clf_has a (clf_fit_params L nf (e_params e))) as Hp' by (by apply clf_fit_params_has).
      unfold P_clf_outputs. rewrite (P_opl a Ha _ Hp'). unfold clf_fit_params. rewrite P_labels_insert_ne, P_labels_insert. cbn [obind].
      destruct Hf as (_ & Hd & _). pose proof (clf_n_bound a L nf Ha _ Hd) as [Hb _].
      rewrite ci32_ret by (unfold int_min; lia). f_equal. lia.
    Qed.

    (** evaluate with fewer labels than samples *)
    Lemma evaluate_short p os rs (e : est) L nf X y : clf_created a p -> clf_history S A vw p os rs e -> clf_dims_of os rs = Some (L, nf) ->
      Forall (v_ok vw nf) X -> (length y < length X)%nat -> Z.of_nat (length X) <= int_max ->
      clf_evaluate S A e X y = UB OutOfBounds.
    Proof.
      intros Hc Hh Hdim HX Hlt Hlen.
      pose proof (clf_history_at g_ok f_ok HR S HS A vw _ _ I E1n E1p E2 Lw a p os rs e Hc eq_refl eq_refl Hh) as Hat. rewrite Hdim in Hat.
      destruct Hat as [He _]. pose proof He as (_ & Hd & Hcore). pose proof Hcore as [HI Hw Hl _ _ _ _]. cbn [fst snd] in *.
      pose proof (P_outputs a L nf Ha _ Hd) as Po. pose proof (P_opl a Ha _ (cd_has _ _ _ _ Hd)) as Pl.
      unfold clf_evaluate. rewrite (cd_labels _ _ _ _ Hd), Pl, Po. cbn [obind]. destruct (cd_has _ _ _ _ Hd).
      rewrite ch_threshold, ch_njobs, ch_tile. cbn [obind].
      set (body := fun it '(errors, c) => _).
      unfold ofor. replace (length X) with (length y + Datatypes.S (length X - length y - 1))%nat by lia.
      rewrite seq_app, ofold_app. cbn [seq].
      assert (exists errors c, ofold (seq 0 (length y)) (0, e_cache e) body = Ret (errors, c) /\ keep S (e_cache e) c) as (er & c & -> & Hk).
      { destruct (ofor_inv (fun i '(errors, c) => keep S (e_cache e) c /\ 0 <= errors <= Z.of_nat i) 0 (length y) (0, e_cache e) body)
          as ([er c] & E & K & _).
        - split; [done|lia].
        - intros i [errors c] Hi (K & He'). unfold body. destruct (vget_ret_lt X i) as (x & Ex & ->); [lia|]. cbn [obind].
          destruct (clf_votes_step g_ok f_ok S HS A vw True True _ _ I E1n E1p E2 (Lw True True) a L nf Ha e He x c) with (nj := ca_n_jobs a) as (c1 & Ec & K1 & Es);
            [by eapply keep_lens|by eapply Forall_lookup_1 in HX|]. rewrite Ec. cbn [obind].
          destruct (vget_ret_lt y i) as (yi & Ey & ->); [lia|]. cbn [obind].
          assert (0 <= b2z (negb (Z.of_nat (argmax (ca_sum c1)) =? yi)) <= 1) as Hb by (destruct (negb _); cbn; lia).
          rewrite ci32_ret by (unfold int_min; lia). cbn [obind]. eexists. split; [done|]. split; [by eapply keep_trans|lia].
        - exists er, c. split; [exact E|done]. }
      cbn [obind ofold]. unfold body at 1. destruct (vget_ret_lt X (length y)) as (x & Ex & Egx); [lia|]. rewrite Nat.add_0_l, Egx. cbn [obind].
      destruct (clf_votes_step g_ok f_ok S HS A vw True True _ _ I E1n E1p E2 (Lw True True) a L nf Ha e He x c) with (nj := ca_n_jobs a) as (c1 & Ec & K1 & Es);
        [by eapply keep_lens|by eapply Forall_lookup_1 in HX|]. rewrite Ec. cbn [obind].
      unfold vget at 1. rewrite (lookup_ge_None_2 y (length y)) by lia. done.
    Qed.
    Lemma evaluate_nothing p os rs (e : est) L nf y : clf_created a p -> clf_history S A vw p os rs e -> clf_dims_of os rs = Some (L, nf) ->
      exists e', clf_evaluate S A e [] y = Ret (Right S754_nan, e').
    Proof.
      intros Hc Hh Hdim.
      pose proof (clf_history_at g_ok f_ok HR S HS A vw _ _ I E1n E1p E2 Lw a p os rs e Hc eq_refl eq_refl Hh) as Hat. rewrite Hdim in Hat.
      destruct Hat as [He _]. pose proof He as (_ & Hd & _).
      pose proof (P_outputs a L nf Ha _ Hd) as Po. pose proof (P_opl a Ha _ (cd_has _ _ _ _ Hd)) as Pl.
      unfold clf_evaluate. rewrite (cd_labels _ _ _ _ Hd), Pl, Po. cbn [obind]. destruct (cd_has _ _ _ _ Hd).
      rewrite ch_threshold, ch_njobs, ch_tile. cbn [obind length ofor seq ofold]. by eexists.
    Qed.
  End Init.

  Lemma evaluate_unfitted a p os rs (e : est) X y : clf_created a p -> clf_history S A vw p os rs e -> clf_dims_of os rs = None ->
    exists k, clf_evaluate S A e X y = Throw k.
  Proof.
    intros Hc Hh Hdim. destruct (clf_hist_laws g_ok f_ok HR A vw HA a (cc_valid _ _ Hc)) as (I & Ea & Eb & E2 & Lw).
    pose proof (clf_history_at g_ok f_ok HR S HS A vw _ _ I Ea Eb E2 Lw a p os rs e Hc eq_refl eq_refl Hh) as Hat. rewrite Hdim in Hat.
    cbn [clf_at] in Hat. subst e. unfold clf_evaluate. cbn [construct e_params].
    pose proof (cc_unfitted _ _ Hc) as Hu. unfold P_number_of_labels, at_int, p_at in *.
    destruct (_ !! _) as [[]|]; cbn in *; try (by eexists). by destruct (Hu z).
  Qed.
End Defects.
