(** * The automata right after initialisation: one draw each, row by row. *)
From Verif Require Import HistFacts TotalFacts TotalProps DefectFacts.
From stdpp Require Import list.
Local Open Scope Z_scope.

Section Draw.
  Context (R : rnd) (g_ok : eG R -> Prop) (f_ok : eF R -> Prop) (HR : rnd_ok R g_ok f_ok).
  Fixpoint g_iter (n : nat) (g : eG R) : eG R := match n with O => g | S n => g_iter n (g_next R g).2 end.
  Lemma g_draw_iter g i : g_draw R g i = (g_next R (g_iter i g)).1.
  Proof. revert g. induction i as [|i IH]; intros g; [done|]. cbn [g_draw g_iter]. apply IH. Qed.
  Lemma g_iter_S i g : g_iter (S i) g = (g_next R (g_iter i g)).2.
  Proof. revert g. induction i as [|i IH]; intros g; [done|]. cbn [g_iter] in *. by rewrite <- IH. Qed.

  (** the bitwise initialisation fills the matrix as the classic one does *)
  Lemma bitwise_init_classic w rows cols g m p g' : bitwise_init R w rows cols g = Ret (m, p, g') -> classic_init R w rows cols g = Ret (m, tt, g').
  Proof.
    unfold bitwise_init, classic_init. cbv zeta. generalize (nm_new w rows cols) (bm_new 64 rows cols). intros m0 p0 E.
    apply obind_ret_inv in E as ([[m1 p1] g1] & E & [= <- <- <-]).
    assert (ofor 0 (nm_rows m0) (m0, g) (fun rit '(m, g) => ofor 0 (nm_cols m) (m, g) (fun cit '(m, g) =>
      let '(v, g) := igen_m1_0 R g in let* m := nm_set m rit cit v in Ret (m, g))) = Ret (m1, g1)) as ->; [|done].
    revert E. unfold ofor. generalize (seq 0 (nm_rows m0)) as l. intros l. revert m0 p0 g.
    induction l as [|i l IH]; intros m0 p0 g.
    { cbn. congruence. }
    cbn [ofold]. intros E. apply obind_ret_inv in E as ([[m2 p2] g2] & E2 & E).
    assert (ofold (seq 0 (nm_cols m0)) (m0, g) (fun cit '(m, g) =>
      let '(v, g) := igen_m1_0 R g in let* m := nm_set m i cit v in Ret (m, g)) = Ret (m2, g2)) as ->; [|by eapply IH].
    revert E2. generalize (seq 0 (nm_cols m0)) as k. intros k. clear. revert m0 p0 g.
    induction k as [|c k IH]; intros m0 p0 g.
    { cbn. congruence. }
    cbn [ofold]. intros E. apply obind_ret_inv in E as ([[m3 p3] g3] & E3 & E).
    destruct (igen_m1_0 R g) as [v g4]. apply obind_ret_inv in E3 as (m4 & E4 & E3). rewrite E4. cbn [obind].
    apply obind_ret_inv in E3 as (st & _ & E3). apply obind_ret_inv in E3 as (p4 & _ & [= <- <- <-]). by eapply IH.
  Qed.

  Definition init_value (g : eG R) (i : nat) : Z := g_draw R g i mod 2 - 1.
  Lemma classic_init_cells w rows cols g m p g' : (w = 8 \/ w = 16 \/ w = 32) -> (0 < rows)%nat ->
    classic_init R w rows cols g = Ret (m, p, g') ->
    nm_w m = w /\ nm_rows m = rows /\ nm_cols m = cols /\ g' = g_iter (rows * cols) g /\
    forall r c, (r < rows)%nat -> (c < cols)%nat -> nm_cell m r c = init_value g (r * cols + c).
  Proof.
    intros Hw Hr E. pose proof (classic_init_written R w rows cols g m p g' Hr Hw E) as Hwf.
    unfold classic_init in E. cbv zeta in E. cbn [nm_new nm_rows nm_cols] in E. fold (nm_new w rows cols) in E.
    set (m0 := nm_new w rows cols) in *.
    match type of E with obind ?o _ = _ => destruct o as [[m1 g1]| | |] eqn:E1; try done end. cbn in E. injection E as <- _ <-.
    set (P := fun (n : nat) (m : nmatrix) (g1 : eG R) => nm_wf m /\ nm_same_shape m0 m /\ g1 = g_iter n g /\
      forall r c, (r < rows)%nat -> (c < cols)%nat -> (r * cols + c < n)%nat -> nm_cell m r c = init_value g (r * cols + c)).
    assert (wp True True (Ret (m1, g1)) (fun '(m, g1) => P (rows * cols)%nat m g1)) as Hwp.
    - rewrite <- E1. eapply wp_mono; [apply (wp_ofor (fun i '(m, g1) => P (i * cols)%nat m g1))|].
      + split; [done|]. split; [done|]. split; [done|]. lia.
      + intros i [mi gi] Hi HP. pose proof HP as (_ & (_ & _ & Eci) & _). rewrite Eci. cbn [m0 nm_new nm_cols].
        eapply wp_mono; [apply (wp_ofor (fun k '(m, g1) => P (i * cols + k)%nat m g1))|].
        * by rewrite Nat.add_0_r.
        * intros k [mk gk] Hk (Hwk & Hsk & -> & Hck). pose proof Hsk as (Ew & Er & Ec). cbn [m0 nm_new nm_w nm_rows nm_cols] in Ew, Er, Ec.
          unfold igen_m1_0. destruct (g_next R (g_iter (i * cols + k) g)) as [r gk'] eqn:En.
          destruct (nm_set_spec mk i k (u32 (-1 + r mod 2)) Hwk) as (mk' & -> & Hwf3 & Hs3 & Hc3); [lia|lia|]. cbn [obind wp].
          split; [done|]. destruct Hs3 as (Ew3 & Er3 & Ec3). split; [split_and!; cbn [m0 nm_new nm_w nm_rows nm_cols]; congruence|].
          rewrite Nat.add_succ_r, g_iter_S, En. split; [done|]. intros r' c' Hr' Hc' Hlt. rewrite Hc3 by lia.
          destruct (Nat.eqb_spec r' i) as [->|], (Nat.eqb_spec c' k) as [->|]; cbn [andb].
          -- rewrite Ew. unfold init_value. rewrite g_draw_iter, En. cbn [fst].
             pose proof (Z.mod_pos_bound r 2 ltac:(lia)). assert (r mod 2 = 0 \/ r mod 2 = 1) as [-> | ->] by lia;
               destruct Hw as [->|[->| ->]]; vm_compute; reflexivity.
          -- apply Hck; [done..|lia].
          -- apply Hck; [done..|]. assert (r' < i \/ i < r')%nat as [|] by lia; nia.
          -- apply Hck; [done..|]. assert (r' < i \/ i < r')%nat as [|] by lia; nia.
        * intros [mk gk]. replace (S i * cols)%nat with (i * cols + cols)%nat by lia. done.
      + intros [mk gk]. done.
    - destruct Hwp as (_ & (Ew & Er & Ec) & -> & Hc). do 4 (split; [done|]). intros r c Hr1 Hc1. apply Hc; [done..|nia].
  Qed.
End Draw.

Section Init.
  Context {R : rnd} (g_ok : eG R -> Prop) (f_ok : eF R -> Prop) (HR : rnd_ok R g_ok f_ok).
  Context (S : sch) (HS : sch_ok S).
  Context (A : algo R) (vw : aview A) (HA : tsetlini_algo R A vw).
  Notation est := (est (a_pol A) (eS S) (eG R) (eF R)).

  Lemma a_init_cells w rows cols g m p g' : (w = 8 \/ w = 16 \/ w = 32) -> (0 < rows)%nat ->
    a_init A w rows cols g = Ret (m, p, g') ->
    nm_w m = w /\ nm_rows m = rows /\ nm_cols m = cols /\ g' = g_iter R (rows * cols) g /\
    forall r c, (r < rows)%nat -> (c < cols)%nat -> nm_cell m r c = init_value R g (r * cols + c).
  Proof.
    destruct HA; cbn [a_init classic Algo.bitwise]; intros Hw Hr E; [by eapply classic_init_cells|].
    apply bitwise_init_classic in E. by eapply classic_init_cells.
  Qed.

  (** the state of a freshly initialised estimator *)
  Definition fresh_automata (seed : Z) (rows nf : nat) (e : est) : Prop :=
    let g := g_init R (wrap_s 32 seed) in
    nm_rows (ta_matrix (e_ta e)) = rows /\ nm_cols (ta_matrix (e_ta e)) = nf /\
    (forall r c, (r < rows)%nat -> (c < nf)%nat -> nm_cell (ta_matrix (e_ta e)) r c = init_value R g (r * nf + c)) /\
    e_igen e = g_iter R (rows * nf) g /\ e_fgen e = f_init R (wrap_s 32 seed).

  Lemma clf_fresh a p os rs (e : est) nf X y ml seed : clf_created a p -> clf_history S A vw p os rs e ->
    good_samples A vw nf X y -> Forall (fun v => 0 <= v < int_max) y -> Z.of_nat nf <= int_max ->
    sizes_fit (n_labels y ml * ca_clauses a) (Z.of_nat nf) -> ca_seed a = Some seed ->
    exists e', clf_fit S A e X y ml 0 = Ret (S_OK, e') /\ fresh_automata seed (Z.to_nat (n_labels y ml * ca_clauses a)) nf e'.
  Proof.
    intros Hc Hh Hg Hy Hnf Hsz Hseed. pose proof (cc_valid _ _ Hc) as Ha.
    destruct (clf_hist_laws g_ok f_ok HR A vw HA a Ha) as (I & Ea & Eb & E2 & Lw).
    destruct (refit_weights g_ok f_ok HR S HS A vw HA I Ea Eb E2 a Ha Lw p os rs e nf X y ml Hc Hh Hg Hy Hnf Hsz) as (e' & Ef & Ei & _).
    exists e'. split; [done|]. set (L := Z.to_nat (n_labels y ml)) in *.
    assert (1 <= n_labels y ml) as HL1.
    { assert (Forall (fun v => 0 <= v) y) as Hy0 by (eapply Forall_impl; [exact Hy|]; cbn; lia).
      destruct (max_label_spec y Hy0) as (H0 & _). unfold n_labels. lia. }
    pose proof (clf_history_at g_ok f_ok HR S HS A vw _ _ I Ea Eb E2 Lw a p os rs e Hc eq_refl eq_refl Hh) as Hat.
    destruct (clf_at_has g_ok f_ok S A True True I a p _ e (cc_has _ _ Hc) Hat) as (Hp & _ & _).
    assert (clf_has a (clf_fit_params L nf (e_params e))) as Hp' by (by apply clf_fit_params_has).
    unfold clf_initialize, initialize_state in Ei. cbn [with_params e_params] in Ei.
    destruct Hp' as [h_cl h_st h_s h_thr h_w h_mw h_b h_nj h_v h_ct h_tl (z & Ez & h_seed)].
    assert (z = seed) as -> by congruence. unfold P_clf_clauses in Ei.
    assert (P_number_of_labels (clf_fit_params L nf (e_params e)) = Ret (Z.of_nat L)) as HpL.
    { unfold clf_fit_params. rewrite P_labels_insert_ne. apply P_labels_insert. }
    assert (P_number_of_features (clf_fit_params L nf (e_params e)) = Ret (Z.of_nat nf)) as Hpf by apply P_features_insert.
    rewrite h_v, h_seed, h_st, HpL, h_cl, Hpf, h_ct, h_w in Ei. cbn [obind] in Ei.
    apply obind_ret_inv in Ei as (n1 & En1 & Ei). apply ci32_inv in En1 as [-> _]. apply obind_ret_inv in Ei as (n2 & _ & Ei).
    apply obind_ret_inv in Ei as ([[m pl] g'] & Em & Ei). apply obind_ret_inv in Ei as (c & _ & [= <-]).
    rewrite Nat2Z.id in Em. replace (Z.of_nat L) with (n_labels y ml) in Em by (unfold L; lia).
    pose proof Ha as [_ Hac _]. destruct (cv_clauses _ Hac).
    apply a_init_cells in Em as (_ & Er & Ec & -> & Hcell); [|apply width_cases|nia].
    split; [done|]. split; [done|]. split; [done|]. split; done.
  Qed.

  Lemma reg_fresh a p os rs (e : est) X y seed e' : reg_created a p -> reg_history S A vw p os rs e ->
    reg_fit S A e X y 0 = Ret (S_OK, e') -> ra_seed a = Some seed ->
    fresh_automata seed (Z.to_nat (ra_clauses a)) (features_of X) e'.
  Proof.
    intros Hc Hh E Hseed. pose proof (rc_valid _ _ Hc) as Ha.
    destruct (reg_hist_laws g_ok f_ok HR A vw HA a Ha) as (I & Ea & Eb & E2 & Lw).
    pose proof (reg_history_at g_ok f_ok HR S HS A vw _ _ I Ea Eb E2 Lw a p os rs e Hc eq_refl eq_refl Hh) as Hat.
    destruct (reg_at_has g_ok S A True True I a p _ e (rc_has _ _ Hc) Hat) as (Hp & _ & _).
    unfold reg_fit in E. apply obind_ret_inv in E as (st & _ & E). case_decide as Hst; [injection E as -> _; done|].
    apply obind_ret_inv in E as (T & _ & E). case_decide as Hst'; [injection E as E _; by rewrite E in Hst'|].
    destruct X as [|x X]; [done|]. cbn [front_size obind features_of] in *.
    apply obind_ret_inv in E as (n & En & E). apply ci32_inv in En as [-> _].
    apply obind_ret_inv in E as (e1 & Ei & E).
    assert (e' = e1) as ->.
    { unfold reg_fit_online in E. do 13 apply obind_ret_inv in E as (? & _ & E). apply obind_ret_inv in E as ([[g1 s1] c1] & Eo & E). unfold ofor in Eo. cbn [seq ofold] in Eo. injection Eo as <- <- <-.
      injection E as <-. by destruct e1. }
    set (nf := a_size A x) in *. fold (reg_fit_params nf (e_params e)) in Ei.
    assert (reg_has a (reg_fit_params nf (e_params e))) as Hp' by (by apply reg_fit_params_has).
    unfold reg_initialize, initialize_state in Ei. cbn [with_params e_params] in Ei.
    destruct Hp' as [h_cl h_st h_s h_thr h_w h_mw h_b h_nj h_v h_ct h_tl h1 h2 h3 (z & Ez & h_seed)].
    assert (z = seed) as -> by congruence.
    assert (P_number_of_features (reg_fit_params nf (e_params e)) = Ret (Z.of_nat nf)) as Hpf by apply P_features_insert.
    rewrite h_v, h_seed, h_st, h_cl, Hpf, h_ct, h_w in Ei. cbn [obind] in Ei.
    apply obind_ret_inv in Ei as (n2 & _ & Ei).
    apply obind_ret_inv in Ei as ([[m pl] g'] & Em & Ei). apply obind_ret_inv in Ei as (c & _ & [= <-]).
    rewrite Nat2Z.id in Em. pose proof Ha as [_ Hac _]. destruct (rv_clauses _ Hac).
    apply a_init_cells in Em as (_ & Er & Ec & -> & Hcell); [|apply width_cases|lia].
    split; [done|]. split; [done|]. split; [done|]. split; done.
  Qed.
End Init.
