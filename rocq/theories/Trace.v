(** * Training as a sequence of updates: every call of fit / partial_fit visits, in each epoch, every sample once, and
      each visit changes the automata and weights in the way prescribed by the feedback rules. *)
From Verif Require Export TrainFacts.
From Coq Require Import Permutation.
From stdpp Require Import list.
Local Open Scope Z_scope.

(** the values read from [l] at the positions [ix], a permutation of all positions, are a permutation of [l] *)
Lemma visited_perm {T} (l : list T) ix vis : Permutation ix (seq 0 (length l)) ->
  Forall2 (fun i v => l !! i = Some v) ix vis -> Permutation vis l.
Proof.
  intros Hp HF. destruct (Permutation_Forall2 Hp HF) as (l' & Hp' & HF'). rewrite Hp'.
  assert (l' = l) as ->; [|done]. apply list_eq. intros i.
  pose proof (Forall2_length _ _ _ HF') as El. rewrite seq_length in El.
  destruct (l !! i) as [v|] eqn:E.
  - pose proof (lookup_lt_Some _ _ _ E) as Hi.
    destruct (Forall2_lookup_l _ _ _ i i HF') as (v' & E' & Ev); [by apply lookup_seq|]. congruence.
  - apply lookup_ge_None_1 in E. apply lookup_ge_None_2. lia.
Qed.

Section Trace.
  Context {R : rnd} (g_ok : eG R -> Prop) (f_ok : eF R -> Prop) (HR : rnd_ok R g_ok f_ok).
  Context (A : algo R) (vw : aview A).
  Context (E1n : nat -> coin_tosser -> a_smp A -> nat -> amp A -> amp A -> Prop).
  Context (E1p : bool -> nat -> coin_tosser -> a_smp A -> nat -> amp A -> amp A -> Prop).
  Context (E2 : nat -> a_smp A -> nat -> amp A -> amp A -> Prop).
  Notation G := (eG R).
  Notation F := (eF R).
  Notation smp := (a_smp A).
  Notation ta := (tastate (a_pol A)).

  Section Clf.
    Context (a : clf_args) (L nf : nat) (ct : coin_tosser).
    Notation opl := (clf_opl a).
    (** one update with sample [x] of label [t] and opposite label [o] *)
    Definition clf_update_effect (x : smp) (t o : nat) (f : F) (s : ta) (f' : F) (s' : ta) : Prop :=
      f' = f_iter R (opl + opl) f /\
      forall j, (j < L * opl)%nat ->
        clause_effect A vw E1n E1p E2 (ca_weighted a) (ca_boost a) (ca_max_weight a) nf ct x j
          (step_feedback A vw a nf f s x t o j) (fires vw nf s x j) s s'.
    (** updates with the given samples and labels, in this order *)
    Inductive clf_trace : list (smp * Z) -> F * ta -> F * ta -> Prop :=
    | clt_nil st : clf_trace [] st st
    | clt_cons x t o vis f s f' s' st : (t < L)%nat -> (o < L)%nat -> o <> t -> clf_update_effect x t o f s f' s' ->
        clf_trace vis (f', s') st -> clf_trace ((x, Z.of_nat t) :: vis) (f, s) st.
    Lemma clf_trace_app v1 v2 s1 s2 s3 : clf_trace v1 s1 s2 -> clf_trace v2 s2 s3 -> clf_trace (v1 ++ v2) s1 s3.
    Proof. induction 1; [done|]. intros. cbn. econstructor; eauto. Qed.
  End Clf.
  Section Reg.
    Context (a : reg_args) (nf : nat) (ct : coin_tosser).
    Notation n := (reg_n a).
    (** one update with sample [x] and target response [y]: nothing when the response is right, otherwise feedback of one
        kind to at most [n] picked clauses *)
    Definition reg_update_effect (loss : float32 -> float32) (x : smp) (y : Z) (s s' : ta) : Prop :=
      let err := step_response A vw a nf s x - y in
      (err = 0 -> s' = s) /\
      exists js, (length js <= n)%nat /\
        (exists g g1, feedback_hits (R := R) (ra_box_muller a) (Z.of_nat n) (loss (f32_div (f32_of_Z err) (f32_of_Z (ra_threshold a)))) g = Ret (Z.of_nat (length js), g1)) /\
        reg_chain A vw E1n E1p E2 a nf ct x (reg_kind err) (fires vw nf s x) js s s'.
    Inductive reg_trace (loss : float32 -> float32) : list (smp * Z) -> ta -> ta -> Prop :=
    | rgt_nil s : reg_trace loss [] s s
    | rgt_cons x y vis s s1 s2 : 0 <= y <= ra_threshold a -> reg_update_effect loss x y s s1 -> reg_trace loss vis s1 s2 ->
        reg_trace loss ((x, y) :: vis) s s2.
    Lemma reg_trace_app loss v1 v2 s1 s2 s3 : reg_trace loss v1 s1 s2 -> reg_trace loss v2 s2 s3 -> reg_trace loss (v1 ++ v2) s1 s3.
    Proof. induction 1; [done|]. intros. cbn. econstructor; eauto. Qed.
  End Reg.

  Section Run.
    Context (S : sch) (HS : sch_ok S) (w N : Z) (I : nat -> nat -> nmatrix -> a_pol A -> Prop).
    Context (Lw : laws A g_ok vw True True w N I E1n E1p E2).
    Notation est := (est (a_pol A) (eS S) G F).
    Notation cache := (cache (eS S)).

    Section Clf.
      Context (a : clf_args) (L nf : nat) (Ha : clf_valid a) (HN : N = ca_states a) (ct : coin_tosser).
      Context (Hct : ct_make (f32_div f32_one (ca_s a)) (Z.of_nat nf) = Ret ct).
      Context (Hn : Z.of_nat (L * clf_opl a) <= int_max).
      Notation opl := (clf_opl a).
      Notation core := (clf_core g_ok f_ok S A True True I a L nf).
      Notation trace := (clf_trace a L nf ct).
      Definition fs (st : G * F * ta * cache) : F * ta := (st.1.1.2, st.1.2).
      Lemma clf_epoch_trace p X y n_jobs tile st st' :
        core st -> Forall (v_ok vw nf) X -> length y = length X -> Forall (fun v => 0 <= v < Z.of_nat L) y -> tile_known tile ->
        clf_epoch S A p X y (Z.of_nat L) (Z.of_nat opl) (ca_threshold a) (ca_max_weight a) N (ca_boost a) tile n_jobs st = Ret st' ->
        core st' /\ exists vis, Permutation vis (zip X y) /\ trace vis (fs st) (fs st').
      Proof.
        intros Hc HX Hly Hy Htile. revert st'. apply wp_partial.
        destruct st as [[[g f] s] c]. unfold clf_epoch. pose proof Hc as [HI Hw Hl Hctk Hrate Hg Hf]. cbn [fst snd] in *.
        destruct (clf_opl_facts a Ha) as (_ & _ & _ & Hopl).
        apply wp_bind. eapply wp_mono; [apply (generate_opposite_spec g_ok f_ok HR); try done; [nia|by right]|].
        intros [oy g1] [HF Hg1]. pose proof (shuf_ok R g_ok f_ok HR g1 (length X) Hg1) as [Hperm Hg2].
        destruct (shuf R g1 (length X)) as [ix g2]. cbn [fst snd] in *.
        eapply wp_mono.
        - apply (wp_ofold_ix (fun pre st => core st /\ exists vis, Forall2 (fun i v => zip X y !! i = Some v) pre vis /\ trace vis (f, s) (fs st))).
          + split; [constructor; done|]. exists []. split; constructor.
          + intros pre i post [[[g' f'] s'] c'] Eix (Hc' & vis & Hvis & Htr).
            assert (i < length X)%nat as Hlt.
            { assert (i ∈ ix) as Hi by (rewrite Eix; set_solver). rewrite Hperm in Hi. apply elem_of_seq in Hi. lia. }
            pose proof (Forall2_length _ _ _ HF) as Elo.
            destruct (vget_ret_lt X i Hlt) as (x & Ex & ->). cbn [obind].
            destruct (vget_ret_lt y i) as (yi & Ey & ->); [lia|]. cbn [obind].
            destruct (vget_ret_lt oy i) as (oi & Eo & ->); [lia|]. cbn [obind].
            destruct (Forall2_lookup_lr _ _ _ _ _ _ HF Ey Eo) as [(ol & -> & Hol) Hne].
            eapply Forall_lookup_1 in Hy; [|exact Ey]. eapply Forall_lookup_1 in HX; [|exact Ex].
            assert (zip X y !! i = Some (x, yi)) as Ez by (apply lookup_zip_with_Some; eauto).
            assert (exists t, yi = Z.of_nat t) as (t & ->) by (exists (Z.to_nat yi); lia).
            eapply wp_mono; [apply (classifier_update_spec g_ok f_ok HR S HS A vw True True w N I E1n E1p E2 Lw a L nf Ha Hn); try done; first [lia|by right]|].
            intros [[[g3 f3] s3] c3] [Hc3 (_ & Ef3 & Heff)]. split; [done|].
            exists (vis ++ [(x, Z.of_nat t)]). split; [by apply Forall2_app; [|constructor]|].
            eapply clf_trace_app; [exact Htr|]. unfold fs in *. cbn [fst snd] in *.
            econstructor; [lia|exact Hol|lia| |constructor]. split; [done|]. intros j Hj.
            destruct Hc' as [? ? ? ? (ct0 & E0 & Hr0) ? ?]. cbn [fst snd] in *. rewrite Hct in E0. injection E0 as <-.
            eapply (clause_effect_frame g_ok A vw True True w N I E1n E1p E2 Lw); [|apply same_at_refl|apply same_at_refl|by apply Heff].
            unfold same_rate in *; intuition congruence.
        - intros st' (Hc' & vis & Hvis & Htr). split; [done|]. exists vis. split; [|done].
          eapply visited_perm; [|exact Hvis]. rewrite zip_with_length_l by lia. done.
      Qed.
      Lemma clf_epochs_trace p X y epochs n_jobs tile st st' :
        core st -> Forall (v_ok vw nf) X -> length y = length X -> Forall (fun v => 0 <= v < Z.of_nat L) y -> tile_known tile ->
        ofor 0 epochs st (fun _ st => clf_epoch S A p X y (Z.of_nat L) (Z.of_nat opl) (ca_threshold a) (ca_max_weight a) N (ca_boost a) tile n_jobs st) = Ret st' ->
        core st' /\ exists viss, length viss = epochs /\ Forall (fun vis => Permutation vis (zip X y)) viss /\ trace (concat viss) (fs st) (fs st').
      Proof.
        intros Hc HX Hly Hy Htile. revert st'. apply wp_partial.
        apply (wp_ofor (fun k st' => core st' /\ exists viss, length viss = k /\ Forall (fun vis => Permutation vis (zip X y)) viss /\ trace (concat viss) (fs st) (fs st'))).
        - split; [done|]. exists []. repeat split; constructor.
        - intros k st1 _ (Hc1 & viss & El & HF & Htr). apply wp_partial. intros st2 E2'.
          destruct (clf_epoch_trace p X y n_jobs tile st1 st2 Hc1 HX Hly Hy Htile E2') as (Hc2 & vis & Hp & Ht). split; [done|].
          exists (viss ++ [vis]). rewrite app_length, El. split; [cbn; lia|]. split; [apply Forall_app; split; [done|by constructor]|].
          rewrite concat_app. cbn. rewrite app_nil_r. by eapply clf_trace_app.
      Qed.
      Lemma clf_online_trace (e e' : est) X y epochs st :
        clf_fitted g_ok f_ok S A True True I a L nf e ->
        Forall (v_ok vw nf) X -> length y = length X -> Forall (fun v => 0 <= v < Z.of_nat L) y ->
        clf_fit_online S A e X y epochs = Ret (st, e') ->
        exists viss, length viss = epochs /\ Forall (fun vis => Permutation vis (zip X y)) viss /\
          trace (concat viss) (e_fgen e, e_ta e) (e_fgen e', e_ta e').
      Proof.
        intros (_ & Hd & Hc) HX Hly Hy. unfold clf_fit_online. pose proof Hd as [Hh HpL Hpf HL1 Hcl].
        pose proof (P_opl a Ha _ Hh) as Eo. destruct Hh as [h_cl h_st h_s h_thr h_w h_mw h_b h_nj h_v h_ct h_tl _].
        pose proof Ha as [_ Hacc _]. destruct Hacc.
        rewrite HpL, Eo, h_thr, h_mw, h_st, h_s, h_b, h_tl, h_nj, h_v. cbn [obind]. rewrite <- HN.
        intros ([[[g f] s] c] & E & Q)%obind_ret_inv. injection Q as <- <-. cbn [e_fgen e_ta].
        apply clf_epochs_trace in E; try done. destruct E as [_ E]. exact E.
      Qed.
    End Clf.

    Section Reg.
      Context (a : reg_args) (nf : nat) (Ha : reg_valid a) (HN : N = ra_states a) (ct : coin_tosser).
      Context (Hct : ct_make (f32_div f32_one (ra_s a)) (Z.of_nat nf) = Ret ct).
      Notation core := (reg_core g_ok S A True True I a nf).
      Notation trace := (reg_trace a nf ct).
      Lemma reg_chain_rate ct1 ct2 x k fire js s s' : same_rate ct1 ct2 ->
        reg_chain A vw E1n E1p E2 a nf ct1 x k fire js s s' -> reg_chain A vw E1n E1p E2 a nf ct2 x k fire js s s'.
      Proof.
        intros Hr. induction 1 as [|j js q1 q2 q3 Hj He Ho Hch IH]; [constructor|]. econstructor; [exact Hj| |exact Ho|exact IH].
        eapply (clause_effect_frame g_ok A vw True True w N I E1n E1p E2 Lw); [exact Hr|apply same_at_refl|apply same_at_refl|exact He].
      Qed.
      Lemma reg_epoch_trace X y loss n_jobs tile st st' :
        core st -> Forall (v_ok vw nf) X -> length y = length X -> Forall (fun v => 0 <= v <= ra_threshold a) y -> tile_known tile ->
        reg_epoch S A X y (ra_threshold a) (Z.of_nat (reg_n a)) N (ra_boost a) (ra_max_weight a) loss (ra_box_muller a) n_jobs tile st = Ret st' ->
        core st' /\ exists vis, Permutation vis (zip X y) /\ trace loss vis st.1.2 st'.1.2.
      Proof.
        intros Hc HX Hly Hy Htile. revert st'. apply wp_partial.
        destruct st as [[g s] c]. unfold reg_epoch. pose proof Hc as [HI Hw Hl Hctk Hrate Hg]. cbn [fst snd] in *.
        pose proof (shuf_ok R g_ok f_ok HR g (length X) Hg) as [Hperm Hg2].
        destruct (shuf R g (length X)) as [ix g2]. cbn [fst snd] in *.
        eapply wp_mono.
        - apply (wp_ofold_ix (fun pre st => core st /\ exists vis, Forall2 (fun i v => zip X y !! i = Some v) pre vis /\ trace loss vis s st.1.2)).
          + split; [constructor; done|]. exists []. split; constructor.
          + intros pre i post [[g' s'] c'] Eix (Hc' & vis & Hvis & Htr).
            assert (i < length X)%nat as Hlt.
            { assert (i ∈ ix) as Hi by (rewrite Eix; set_solver). rewrite Hperm in Hi. apply elem_of_seq in Hi. lia. }
            destruct (vget_ret_lt X i Hlt) as (x & Ex & ->). cbn [obind].
            destruct (vget_ret_lt y i) as (yi & Ey & ->); [lia|]. cbn [obind].
            eapply Forall_lookup_1 in Hy; [|exact Ey]. eapply Forall_lookup_1 in HX; [|exact Ex].
            assert (zip X y !! i = Some (x, yi)) as Ez by (apply lookup_zip_with_Some; eauto).
            eapply wp_mono; [apply (regressor_update_spec g_ok f_ok HR S HS A vw True True w N I E1n E1p E2 Lw a nf Ha); try done|].
            { apply (hits_good_true g_ok a (ra_box_muller a) loss). }
            intros [[g3 s3] c3] [Hc3 (H0 & js & Hlen & Hcnt & Heff)]. split; [done|].
            exists (vis ++ [(x, yi)]). split; [by apply Forall2_app; [|constructor]|].
            eapply reg_trace_app; [exact Htr|]. cbn [fst snd] in *.
            econstructor; [done| |constructor]. split; [done|]. exists js. split; [lia|]. split; [destruct Hcnt as (gq & Hcnt); by exists g', gq|].
            destruct Hc' as [? ? ? ? (ct0 & E0 & Hr0) ?]. cbn [fst snd] in *. rewrite Hct in E0. injection E0 as <-.
            eapply reg_chain_rate; [|exact Heff]. unfold same_rate in *; intuition congruence.
        - intros st' (Hc' & vis & Hvis & Htr). split; [done|]. exists vis. split; [|done].
          eapply visited_perm; [|exact Hvis]. rewrite zip_with_length_l by lia. done.
      Qed.
      Lemma reg_epochs_trace X y loss epochs n_jobs tile st st' :
        core st -> Forall (v_ok vw nf) X -> length y = length X -> Forall (fun v => 0 <= v <= ra_threshold a) y -> tile_known tile ->
        ofor 0 epochs st (fun _ st => reg_epoch S A X y (ra_threshold a) (Z.of_nat (reg_n a)) N (ra_boost a) (ra_max_weight a) loss (ra_box_muller a) n_jobs tile st) = Ret st' ->
        core st' /\ exists viss, length viss = epochs /\ Forall (fun vis => Permutation vis (zip X y)) viss /\ trace loss (concat viss) st.1.2 st'.1.2.
      Proof.
        intros Hc HX Hly Hy Htile. revert st'. apply wp_partial.
        apply (wp_ofor (fun k st' => core st' /\ exists viss, length viss = k /\ Forall (fun vis => Permutation vis (zip X y)) viss /\ trace loss (concat viss) st.1.2 st'.1.2)).
        - split; [done|]. exists []. repeat split; constructor.
        - intros k st1 _ (Hc1 & viss & El & HF & Htr). apply wp_partial. intros st2 E2'.
          destruct (reg_epoch_trace X y loss n_jobs tile st1 st2 Hc1 HX Hly Hy Htile E2') as (Hc2 & vis & Hp & Ht). split; [done|].
          exists (viss ++ [vis]). rewrite app_length, El. split; [cbn; lia|]. split; [apply Forall_app; split; [done|by constructor]|].
          rewrite concat_app. cbn. rewrite app_nil_r. by eapply reg_trace_app.
      Qed.
      Lemma reg_online_trace (e e' : est) X y epochs st :
        reg_fitted g_ok S A True True I a nf e ->
        Forall (v_ok vw nf) X -> length y = length X -> Forall (fun v => 0 <= v <= ra_threshold a) y ->
        reg_fit_online S A e X y epochs = Ret (st, e') ->
        exists loss viss, make_loss_fn (ra_loss a) (ra_C1 a) = Ret loss /\
          length viss = epochs /\ Forall (fun vis => Permutation vis (zip X y)) viss /\ trace loss (concat viss) (e_ta e) (e_ta e').
      Proof.
        intros (_ & Hd & Hc) HX Hly Hy. unfold reg_fit_online. destruct Hd as [Hh Hpf].
        pose proof (P_reg_n a Ha _ Hh) as En. destruct Hh. pose proof Ha as [_ Hacc _]. destruct Hacc.
        rewrite En, rh_threshold, rh_maxw, rh_states, rh_s, rh_boost, rh_tile, rh_njobs, rh_verbose, rh_loss, rh_C1, rh_box. cbn [obind]. rewrite <- HN.
        intros (loss & El & Q)%obind_ret_inv. apply obind_ret_inv in Q as ([[g s] c] & E & Q). injection Q as <- <-. cbn [e_ta].
        apply reg_epochs_trace in E; try done. destruct E as (_ & viss & E). exists loss, viss. done.
      Qed.
    End Reg.
  End Run.
End Trace.
