(** * Lockstep of whole public calls and histories. *)
From Verif Require Export SimUpdate HistFacts.
From stdpp Require Import list.
Local Open Scope Z_scope.

(** parameter sets which may differ in the number of threads and the tile size only *)
Definition same_but_jobs (p1 p2 : params) : Prop :=
  forall k, k <> "n_jobs"%string -> k <> "clause_output_tile_size"%string -> p2 !! k = p1 !! k.
Definition clf_args_alike (a1 a2 : clf_args) : Prop :=
  a2 = ClfArgs (ca_clauses a1) (ca_states a1) (ca_s a1) (ca_threshold a1) (ca_weighted a1) (ca_max_weight a1) (ca_boost a1)
    (ca_n_jobs a2) (ca_verbose a1) (ca_counting a1) (ca_tile a2) (ca_seed a1).
Definition reg_args_alike (a1 a2 : reg_args) : Prop :=
  a2 = RegArgs (ra_clauses a1) (ra_states a1) (ra_s a1) (ra_threshold a1) (ra_weighted a1) (ra_max_weight a1) (ra_boost a1)
    (ra_n_jobs a2) (ra_verbose a1) (ra_counting a1) (ra_tile a2) (ra_loss a1) (ra_C1 a1) (ra_box_muller a1) (ra_seed a1).
Lemma same_but_jobs_refl p : same_but_jobs p p. Proof. done. Qed.
Lemma same_but_jobs_sym p q : same_but_jobs p q -> same_but_jobs q p.
Proof. intros H k H1 H2. symmetry. auto. Qed.
Lemma same_but_jobs_trans p q r : same_but_jobs p q -> same_but_jobs q r -> same_but_jobs p r.
Proof. intros H H' k H1 H2. rewrite H', H; done. Qed.
Lemma same_but_jobs_insert p1 p2 k v : same_but_jobs p1 p2 -> same_but_jobs (<[k := v]> p1) (<[k := v]> p2).
Proof.
  intros H k' H1 H2. destruct (decide (k = k')) as [->|Hne]; [by rewrite !lookup_insert|].
  rewrite !lookup_insert_ne by done. by apply H.
Qed.
Lemma p_at_jobs p1 p2 k : same_but_jobs p1 p2 -> k <> "n_jobs"%string -> k <> "clause_output_tile_size"%string -> p_at p2 k = p_at p1 k.
Proof. intros H H1 H2. unfold p_at. by rewrite H. Qed.

Section PJobs.
  Context (p1 p2 : params) (H : same_but_jobs p1 p2).
  Ltac t := unfold P_verbose, P_random_state, P_number_of_states, P_clf_clauses, P_clf_outputs, P_outputs_per_label,
    P_number_of_labels, P_clauses_per_label, P_number_of_features, P_counting_type, P_weighted, P_s, P_reg_clauses, P_reg_outputs,
    P_threshold, P_max_weight, P_boost, P_loss_fn, P_loss_C1, P_box_muller, at_bool, at_int, at_real, at_str, at_seed;
    rewrite ?(p_at_jobs p1 p2) by done; done.
  Lemma pj_verbose : P_verbose p2 = P_verbose p1. Proof. t. Qed.
  Lemma pj_seed : P_random_state p2 = P_random_state p1. Proof. t. Qed.
  Lemma pj_states : P_number_of_states p2 = P_number_of_states p1. Proof. t. Qed.
  Lemma pj_clf_clauses : P_clf_clauses p2 = P_clf_clauses p1. Proof. t. Qed.
  Lemma pj_clf_outputs : P_clf_outputs p2 = P_clf_outputs p1. Proof. t. Qed.
  Lemma pj_cpl : P_clauses_per_label p2 = P_clauses_per_label p1. Proof. t. Qed.
  Lemma pj_opl : P_outputs_per_label p2 = P_outputs_per_label p1. Proof. t. Qed.
  Lemma pj_labels : P_number_of_labels p2 = P_number_of_labels p1. Proof. t. Qed.
  Lemma pj_features : P_number_of_features p2 = P_number_of_features p1. Proof. t. Qed.
  Lemma pj_counting : P_counting_type p2 = P_counting_type p1. Proof. t. Qed.
  Lemma pj_weighted : P_weighted p2 = P_weighted p1. Proof. t. Qed.
  Lemma pj_s : P_s p2 = P_s p1. Proof. t. Qed.
  Lemma pj_reg_clauses : P_reg_clauses p2 = P_reg_clauses p1. Proof. t. Qed.
  Lemma pj_reg_outputs : P_reg_outputs p2 = P_reg_outputs p1. Proof. t. Qed.
  Lemma pj_threshold : P_threshold p2 = P_threshold p1. Proof. t. Qed.
  Lemma pj_maxw : P_max_weight p2 = P_max_weight p1. Proof. t. Qed.
  Lemma pj_boost : P_boost p2 = P_boost p1. Proof. t. Qed.
  Lemma pj_loss : P_loss_fn p2 = P_loss_fn p1. Proof. t. Qed.
  Lemma pj_C1 : P_loss_C1 p2 = P_loss_C1 p1. Proof. t. Qed.
  Lemma pj_box : P_box_muller p2 = P_box_muller p1. Proof. t. Qed.
  Lemma clf_has_alike a1 a2 : clf_has a1 p1 -> clf_has a2 p2 -> clf_args_alike a1 a2.
  Proof.
    intros [] []. rewrite pj_cpl in ch_clauses0. rewrite pj_states in ch_states0. rewrite pj_s in ch_s0. rewrite pj_threshold in ch_threshold0.
    rewrite pj_weighted in ch_weighted0. rewrite pj_maxw in ch_maxw0. rewrite pj_boost in ch_boost0. rewrite pj_verbose in ch_verbose0.
    rewrite pj_counting in ch_counting0. rewrite pj_seed in ch_seed0.
    destruct ch_seed as (z & Ez & E1), ch_seed0 as (z' & Ez' & E2).
    unfold clf_args_alike. destruct a1, a2; cbn in *. f_equal; congruence.
  Qed.
  Lemma reg_has_alike a1 a2 : reg_has a1 p1 -> reg_has a2 p2 -> reg_args_alike a1 a2.
  Proof.
    intros [] []. rewrite pj_reg_clauses in rh_clauses0. rewrite pj_states in rh_states0. rewrite pj_s in rh_s0. rewrite pj_threshold in rh_threshold0.
    rewrite pj_weighted in rh_weighted0. rewrite pj_maxw in rh_maxw0. rewrite pj_boost in rh_boost0. rewrite pj_verbose in rh_verbose0.
    rewrite pj_counting in rh_counting0. rewrite pj_loss in rh_loss0. rewrite pj_C1 in rh_C0. rewrite pj_box in rh_box0. rewrite pj_seed in rh_seed0.
    destruct rh_seed as (z & Ez & E1), rh_seed0 as (z' & Ez' & E2).
    unfold reg_args_alike. destruct a1, a2; cbn in *. f_equal; congruence.
  Qed.
End PJobs.

Section Sim.
  Context {R : rnd} (g_ok : eG R -> Prop) (f_ok : eF R -> Prop) (HR : rnd_ok R g_ok f_ok).
  Context (S1 : sch) (HS1 : sch_ok S1) (S2 : sch) (HS2 : sch_ok S2).
  Context (A : algo R) (vw : aview A).
  Notation G := (eG R).
  Notation F := (eF R).
  Notation smp := (a_smp A).
  Notation ta := (tastate (a_pol A)).
  Notation est1 := (est (a_pol A) (eS S1) G F).
  Notation est2 := (est (a_pol A) (eS S2) G F).

  (** what makes two estimators indistinguishable *)
  Definition esim (e1 : est1) (e2 : est2) : Prop :=
    same_but_jobs (e_params e1) (e_params e2) /\ e_ta e2 = e_ta e1 /\ e_igen e2 = e_igen e1 /\ e_fgen e2 = e_fgen e1 /\
    cache_sim S1 S2 (e_cache e1) (e_cache e2).
  Lemma esim_construct p1 p2 : same_but_jobs p1 p2 -> esim (construct S1 A p1) (construct S2 A p2).
  Proof. intros H. unfold esim, cache_sim, ct_sim, same_rate. cbn. done. Qed.

  (** initialisation *)
  Lemma init_sim cl out reset1 reset2 (e1 : est1) (e2 : est2) :
    same_but_jobs (e_params e1) (e_params e2) -> ta_weights (e_ta e2) = ta_weights (e_ta e1) ->
    cl (e_params e2) = cl (e_params e1) -> out (e_params e2) = out (e_params e1) ->
    (orel (cache_sim S1 S2) (reset1 (e_params e1) (e_cache e1)) (reset2 (e_params e2) (e_cache e2))) ->
    orel esim (initialize_state S1 A cl out reset1 e1) (initialize_state S2 A cl out reset2 e2).
  Proof.
    intros Hp Hw Ecl Eout Hr. unfold initialize_state.
    rewrite (pj_verbose _ _ Hp), (pj_seed _ _ Hp), (pj_states _ _ Hp), Ecl, Eout, (pj_features _ _ Hp), (pj_counting _ _ Hp), (pj_weighted _ _ Hp), Hw.
    do 8 (apply orel_same; intros ? _). apply orel_same. intros [[m p] g] _.
    eapply orel_bind; [exact Hr|]. intros c1 c2 _ _ Hc. split; [done|]. split; [done|]. done.
  Qed.
  Lemma clf_init_sim (e1 : est1) (e2 : est2) :
    same_but_jobs (e_params e1) (e_params e2) -> ta_weights (e_ta e2) = ta_weights (e_ta e1) ->
    orel esim (clf_initialize S1 A e1) (clf_initialize S2 A e2).
  Proof.
    intros Hp Hw. apply init_sim; try done.
    - by apply pj_clf_clauses. - by apply pj_clf_outputs.
    - unfold clf_cache_reset. rewrite (pj_clf_outputs _ _ Hp), (pj_labels _ _ Hp), (pj_s _ _ Hp), (pj_features _ _ Hp).
      do 5 (apply orel_same; intros ? _). unfold cache_sim, ct_sim, same_rate. done.
  Qed.
  Lemma reg_init_sim (e1 : est1) (e2 : est2) :
    same_but_jobs (e_params e1) (e_params e2) -> ta_weights (e_ta e2) = ta_weights (e_ta e1) ->
    orel esim (reg_initialize S1 A e1) (reg_initialize S2 A e2).
  Proof.
    intros Hp Hw. apply init_sim; try done.
    - by apply pj_reg_clauses. - by apply pj_reg_outputs.
    - unfold reg_cache_reset. rewrite (pj_reg_outputs _ _ Hp), (pj_s _ _ Hp), (pj_features _ _ Hp).
      do 4 (apply orel_same; intros ? _). unfold cache_sim, ct_sim, same_rate. done.
  Qed.

  Section Laws.
    Context (w N : Z) (I : nat -> nat -> nmatrix -> a_pol A -> Prop).
    Context (E1n : nat -> coin_tosser -> a_smp A -> nat -> amp A -> amp A -> Prop).
    Context (E1p : bool -> nat -> coin_tosser -> a_smp A -> nat -> amp A -> amp A -> Prop).
    Context (E2 : nat -> a_smp A -> nat -> amp A -> amp A -> Prop).
    Context (Lw : laws A g_ok vw True True w N I E1n E1p E2).

    (** ** Classifier *)
    Section Clf.
      Context (a1 a2 : clf_args) (Ha1 : clf_valid a1) (Ha2 : clf_valid a2) (Haa : clf_args_alike a1 a2).
      Context (HN : N = ca_states a1) (Hw : w = width_of (ca_counting a1) (ca_states a1)).
      Notation fitted1 := (clf_fitted g_ok f_ok S1 A True True I a1).
      Notation fitted2 := (clf_fitted g_ok f_ok S2 A True True I a2).

      Lemma alike_N : N = ca_states a2. Proof. rewrite Haa. done. Qed.
      Lemma alike_w : w = width_of (ca_counting a2) (ca_states a2). Proof. rewrite Haa. done. Qed.
      Lemma core_alike S L nf st : clf_core g_ok f_ok S A True True I a2 L nf st -> clf_core g_ok f_ok S A True True I a1 L nf st.
      Proof. rewrite Haa. intros []. by constructor. Qed.
      Lemma core_alike' S L nf st : clf_core g_ok f_ok S A True True I a1 L nf st -> clf_core g_ok f_ok S A True True I a2 L nf st.
      Proof. rewrite Haa. intros []. by constructor. Qed.

      Lemma clf_online_sim (e1 : est1) (e2 : est2) L nf X y epochs : fitted1 L nf e1 -> fitted2 L nf e2 -> esim e1 e2 ->
        Forall (v_ok vw nf) X -> length y = length X -> Forall (fun v => 0 <= v < Z.of_nat L) y ->
        orel (fun r1 r2 => r2.1 = r1.1 /\ esim r1.2 r2.2) (clf_fit_online S1 A e1 X y epochs) (clf_fit_online S2 A e2 X y epochs).
      Proof.
        intros (_ & Hd1 & Hc1) (_ & Hd2 & Hc2) (Hp & Et & Eg & Ef & Hcs) HX Hly Hy. unfold clf_fit_online.
        pose proof (clf_n_bound a1 L nf Ha1 _ Hd1) as [Hn _].
        rewrite (pj_labels _ _ Hp), (pj_opl _ _ Hp), (pj_threshold _ _ Hp), (pj_maxw _ _ Hp), (pj_states _ _ Hp), (pj_s _ _ Hp), (pj_boost _ _ Hp), (pj_verbose _ _ Hp).
        pose proof Hd1 as [Hh1 HpL Hpf HL1 Hcl]. pose proof Hd2 as [Hh2 _ _ _ _].
        pose proof (P_opl a1 Ha1 _ Hh1) as Eo. destruct Hh1 as [h_cl h_st h_s h_thr h_w h_mw h_b h_nj h_v h_ct h_tl _].
        rewrite HpL, Eo, h_thr, h_mw, h_st, h_s, h_b, h_tl, h_nj, h_v, (ch_tile _ _ Hh2), (ch_njobs _ _ Hh2). cbn [obind].
        rewrite <- HN. eapply orel_bind.
        { apply (clf_epochs_sim g_ok f_ok HR S1 HS1 S2 HS2 A vw w N I E1n E1p E2 Lw a1 L nf Ha1 Hn); try done.
          - split; [|split; [exact Hc1|by apply core_alike]]. split; [cbn; congruence|done].
          - apply Ha1. - apply Ha2. }
        intros [[[g f] s] c] [[[g' f'] s'] c'] _ _ ([Eq Hcs'] & _ & _). cbn [fst snd] in *. injection Eq as -> -> ->.
        split; [done|]. split; [done|]. done.
      Qed.

      Definition fit_sim (e1 : est1) (e2 : est2) (r1 : status * est1) (r2 : status * est2) : Prop :=
        r2.1 = r1.1 /\ (r1.1 = S_OK /\ esim r1.2 r2.2 \/ r1.1 <> S_OK /\ r1.2 = e1 /\ r2.2 = e2).
      Lemma clf_fit_sim (e1 : est1) (e2 : est2) X y ml epochs : Forall (v_phys vw) X ->
        clf_has a1 (e_params e1) -> clf_has a2 (e_params e2) ->
        (forall L nf, same_but_jobs (clf_fit_params L nf (e_params e1)) (clf_fit_params L nf (e_params e2))) ->
        weights_pre (ca_weighted a1) (ca_max_weight a1) (ta_weights (e_ta e1)) -> ta_weights (e_ta e2) = ta_weights (e_ta e1) ->
        orel (fit_sim e1 e2) (clf_fit S1 A e1 X y ml epochs) (clf_fit S2 A e2 X y ml epochs).
      Proof.
        intros HX Hh1 Hh2 Hpp Hws Ew. unfold clf_fit.
        destruct (check_X_y_spec g_ok A vw True True w N I E1n E1p E2 Lw X y HX) as [(nf & Hd & E & Ef)|[Hno E]]; rewrite E; cbn [obind].
        2:{ rewrite !decide_True by done. split; [done|]. right. done. }
        rewrite !(decide_False (P := S_OK <> S_OK)) by (intros H; by apply H).
        apply orel_same. intros hi Ehi. apply orel_same. intros hi1 [-> _]%ci32_inv.
        apply orel_same. intros st Est. destruct (decide (st <> S_OK)) as [Hst|Hst].
        { split; [done|]. by right. }
        assert (y <> []) as Hyne. { intros ->. destruct Hd as [[Hne _] El]. destruct X; [done|]. cbn in El. lia. }
        destruct (check_labels_spec y Hyne) as [[H0 Ecl]|[H0 Ecl]]; rewrite Ecl in Est; injection Est as <-; [|exfalso; by apply Hst].
        rewrite Ef. cbn [obind]. apply orel_same. intros nfz [-> _]%ci32_inv.
        rewrite list_max_label in Ehi by done. injection Ehi as <-.
        destruct (max_label_spec y H0) as (Hm0 & HFm & _).
        fold (n_labels y ml). assert (1 <= n_labels y ml) as HL1 by (unfold n_labels; lia).
        set (L := Z.to_nat (n_labels y ml)) in *. assert (Z.of_nat L = n_labels y ml) as EL by (unfold L; lia). rewrite <- EL.
        fold (clf_fit_params L nf (e_params e1)). fold (clf_fit_params L nf (e_params e2)).
        pose proof (clf_init_spec g_ok f_ok HR S1 A vw True True w N I E1n E1p E2 Lw a1 Ha1 Hw
          (with_params S1 A (clf_fit_params L nf (e_params e1)) e1) L nf ltac:(lia) (clf_fit_params_has _ _ _ _ Hh1)) as W1.
        pose proof (clf_init_spec g_ok f_ok HR S2 A vw True True w N I E1n E1p E2 Lw a2 Ha2 alike_w
          (with_params S2 A (clf_fit_params L nf (e_params e2)) e2) L nf ltac:(lia) (clf_fit_params_has _ _ _ _ Hh2)) as W2.
        specialize (W1 ltac:(cbn [with_params e_params]; unfold clf_fit_params; rewrite P_labels_insert_ne; apply P_labels_insert)
          ltac:(cbn [with_params e_params]; apply P_features_insert) Hws (clf_side_true g_ok A vw w a1 L nf)).
        specialize (W2 ltac:(cbn [with_params e_params]; unfold clf_fit_params; rewrite P_labels_insert_ne; apply P_labels_insert)
          ltac:(cbn [with_params e_params]; apply P_features_insert)).
        specialize (W2 ltac:(cbn [with_params e_ta]; rewrite Ew, Haa; exact Hws) (clf_side_true g_ok A vw w a2 L nf)).
        eapply orel_bind; [apply clf_init_sim; cbn [with_params e_params e_ta]; [apply Hpp|done]|].
        intros i1 i2 Ei1 Ei2 Hi. rewrite Ei1 in W1. rewrite Ei2 in W2. cbn [wp] in W1, W2.
        eapply orel_mono_eq; [apply (clf_online_sim i1 i2 L nf); try done; try apply Hd; try apply W1; try apply W2|].
        { rewrite Forall_forall in *. intros v Hv. specialize (H0 v Hv). specialize (HFm v Hv). cbn in *. unfold n_labels in EL. lia. }
        intros [st1 f1] [st2 f2] Q1 Q2 [Es Hsim]. cbn [fst snd] in *. subst st2. split; [done|]. left. split; [|done].
        unfold clf_fit_online in Q1. repeat (apply obind_ret_inv in Q1 as (? & _ & Q1)). match type of Q1 with context[match ?x with _ => _ end] => destruct x as [[[? ?] ?] ?] end. by injection Q1.
      Qed.

      Lemma fit_online_ok S (e : est (a_pol A) (eS S) G F) X y epochs st e' : clf_fit_online S A e X y epochs = Ret (st, e') -> st = S_OK.
      Proof.
        unfold clf_fit_online. intros Q1. repeat (apply obind_ret_inv in Q1 as (? & _ & Q1)).
        match type of Q1 with context[match ?x with _ => _ end] => destruct x as [[[? ?] ?] ?] end. by injection Q1.
      Qed.
      Lemma clf_checked_sim (e1 : est1) (e2 : est2) L nf X y ml epochs : Forall (v_phys vw) X ->
        fitted1 L nf e1 -> fitted2 L nf e2 -> esim e1 e2 ->
        orel (fun r1 r2 => r2.1 = r1.1 /\ esim r1.2 r2.2) (clf_fit_online_checked S1 A e1 X y ml epochs) (clf_fit_online_checked S2 A e2 X y ml epochs).
      Proof.
        intros HX Hf1 Hf2 Hs. pose proof Hf1 as (_ & Hd1 & _). pose proof Hf2 as (_ & Hd2 & _). unfold clf_fit_online_checked.
        destruct (check_X_y_spec g_ok A vw True True w N I E1n E1p E2 Lw X y HX) as [(nf' & Hd & E & Ef)|[Hno E]]; rewrite E; cbn [obind].
        2:{ rewrite !decide_True by done. done. }
        rewrite !(decide_False (P := S_OK <> S_OK)) by (intros H; by apply H).
        rewrite (cd_features _ _ _ _ Hd1), (cd_features _ _ _ _ Hd2). cbn [obind]. unfold check_X. rewrite Ef. cbn [obind].
        destruct (Z.eqb_spec (Z.of_nat nf') (Z.of_nat nf)) as [Hnf|Hnf].
        2:{ rewrite !decide_True by done. done. }
        rewrite !(decide_False (P := S_OK <> S_OK)) by (intros H; by apply H). assert (nf' = nf) as -> by lia.
        rewrite (cd_labels _ _ _ _ Hd1), (cd_labels _ _ _ _ Hd2). cbn [obind].
        apply orel_same. intros ml' [-> _]%ci32_inv. apply orel_same. intros st Est.
        assert (y <> []) as Hyne. { intros ->. destruct Hd as [[Hne _] El]. destruct X; [done|]. cbn in El. lia. }
        destruct (check_labels_max_spec y (Z.of_nat L - 1) Hyne) as [[H0 Ecl]|[H0 Ecl]]; rewrite Ecl in Est; injection Est as <-.
        2:{ rewrite !decide_True by done. done. }
        rewrite !(decide_False (P := S_OK <> S_OK)) by (intros H; by apply H).
        apply (clf_online_sim e1 e2 L nf); try done; try apply Hd.
        eapply Forall_impl; [exact H0|]. cbn. intros; lia.
      Qed.

      Lemma esim_keep (e1 : est1) (e2 : est2) c1 c2 : esim e1 e2 -> keep S1 (e_cache e1) c1 -> keep S2 (e_cache e2) c2 ->
        esim (with_cache S1 A c1 e1) (with_cache S2 A c2 e2).
      Proof.
        intros (Hp & Et & Eg & Ef & Hcs) (K1 & K2 & K3 & K4) (K1' & K2' & K3' & K4'). repeat (split; [done|]).
        destruct Hcs as (C1 & C2 & C3 & C4). cbn [with_cache e_cache]. unfold cache_sim. rewrite K1, K2, K3, K4, K1', K2', K3', K4'. done.
      Qed.

      (** evaluate does no input validation: scope of the claims about it *)
      Definition evaluate_scope (d : option (nat * nat)) (o : clf_op A) : Prop :=
        match o with CEvaluate _ X y => match d with None => True | Some _ => evaluate_ok A vw d X y end | _ => True end.
      Notation at1 := (clf_at g_ok f_ok S1 A True True I a1).
      Notation at2 := (clf_at g_ok f_ok S2 A True True I a2).
      Definition res_sim {RES} (r1 : RES * est1) (r2 : RES * est2) : Prop := r2.1 = r1.1 /\ esim r1.2 r2.2.
      Lemma res_sim_map {RES RES'} (h : RES -> RES') o1 o2 : orel (res_sim (RES := RES)) o1 o2 ->
        orel (res_sim (RES := RES')) (let* '(r, e) := o1 in Ret (h r, e)) (let* '(r, e) := o2 in Ret (h r, e)).
      Proof. intros H. eapply orel_bind; [exact H|]. intros [r e] [r' e'] _ _ [E Hs]. cbn in E. subst r'. done. Qed.
      Lemma clf_step_sim p1 p2 d (e1 : est1) (e2 : est2) o : clf_has a1 p1 -> clf_has a2 p2 ->
        (forall z, P_number_of_labels p1 <> Ret z) ->
        at1 p1 d e1 -> at2 p2 d e2 -> esim e1 e2 -> clf_op_phys A vw o -> evaluate_scope d o ->
        orel res_sim (clf_step S1 A e1 o) (clf_step S2 A e2 o).
      Proof.
        intros Hh1 Hh2 Hnl At1 At2 Hs Ho Hsc. pose proof Hs as [Hpp _].
        assert (forall X y ml epochs, Forall (v_phys vw) X -> orel res_sim (clf_fit S1 A e1 X y ml epochs) (clf_fit S2 A e2 X y ml epochs)) as Hfit.
        { intros X y ml epochs HX. destruct (clf_at_has _ _ S1 A _ _ _ a1 p1 d e1 Hh1 At1) as (B1 & B2 & B3).
          destruct (clf_at_has _ _ S2 A _ _ _ a2 p2 d e2 Hh2 At2) as (D1 & D2 & D3).
          eapply orel_mono; [apply (clf_fit_sim e1 e2 X y ml epochs); try done|].
          - intros L nf. unfold clf_fit_params. by do 2 apply same_but_jobs_insert.
          - by destruct Hs as (_ & -> & _).
          - intros [st1 f1] [st2 f2] [E [[E' Hs']|(E' & E1 & E2')]]; (split; [done|]); cbn [fst snd] in *; [done|]. by subst. }
        destruct o as [X y ml epochs|X y ml epochs|x|X|x|X|X y]; unfold clf_step; apply res_sim_map.
        - by apply Hfit.
        - unfold clf_partial_fit. assert (is_fitted A (e_ta e2) = is_fitted A (e_ta e1)) as -> by (by destruct Hs as (_ & -> & _)).
          destruct d as [[L nf]|].
          + destruct At1 as [Hf1 _], At2 as [Hf2 _].
            rewrite (clf_is_fitted g_ok f_ok S1 A vw True True _ _ I E1n E1p E2 Lw a1 L nf Ha1 e1 Hf1).
            eapply orel_mono; [by apply (clf_checked_sim e1 e2 L nf)|]. done.
          + cbn in At1. subst e1. rewrite is_fitted_construct. by apply Hfit.
        - destruct d as [[L nf]|].
          + destruct At1 as [Hf1 _], At2 as [Hf2 _].
            destruct (clf_predict1_spec g_ok f_ok S1 HS1 A vw True True _ _ I E1n E1p E2 Lw a1 L nf Ha1 e1 Hf1 x Ho) as [(Hx & c & -> & K)|(Hx & ->)],
              (clf_predict1_spec g_ok f_ok S2 HS2 A vw True True _ _ I E1n E1p E2 Lw a2 L nf Ha2 e2 Hf2 x Ho) as [(Hx' & c' & -> & K')|(Hx' & ->)]; try done.
            split; [|by apply esim_keep]. cbn [fst]. destruct Hs as (_ & -> & _). rewrite Haa. done.
          + cbn in At1, At2. subst e1 e2. unfold clf_predict1. rewrite !check_single_unfitted by done. cbn. rewrite !decide_True by done. done.
        - destruct d as [[L nf]|].
          + destruct At1 as [Hf1 _], At2 as [Hf2 _].
            destruct (clf_predict_spec g_ok f_ok S1 HS1 A vw True True _ _ I E1n E1p E2 Lw a1 L nf Ha1 e1 Hf1 X Ho) as [(Hx & c & -> & K)|(Hx & ->)],
              (clf_predict_spec g_ok f_ok S2 HS2 A vw True True _ _ I E1n E1p E2 Lw a2 L nf Ha2 e2 Hf2 X Ho) as [(Hx' & c' & -> & K')|(Hx' & ->)]; try done.
            split; [|by apply esim_keep]. cbn [fst]. destruct Hs as (_ & -> & _). rewrite Haa. done.
          + cbn in At1, At2. subst e1 e2. unfold clf_predict. rewrite !check_batch_unfitted by done. cbn. rewrite !decide_True by done. done.
        - destruct d as [[L nf]|].
          + destruct At1 as [Hf1 _], At2 as [Hf2 _].
            destruct (clf_decision1_spec g_ok f_ok S1 HS1 A vw True True _ _ I E1n E1p E2 Lw a1 L nf Ha1 e1 Hf1 x Ho) as [(Hx & c & -> & K)|(Hx & ->)],
              (clf_decision1_spec g_ok f_ok S2 HS2 A vw True True _ _ I E1n E1p E2 Lw a2 L nf Ha2 e2 Hf2 x Ho) as [(Hx' & c' & -> & K')|(Hx' & ->)]; try done.
            split; [|by apply esim_keep]. cbn [fst]. destruct Hs as (_ & -> & _). rewrite Haa. done.
          + cbn in At1, At2. subst e1 e2. unfold clf_decision1. rewrite !check_single_unfitted by done. cbn. rewrite !decide_True by done. done.
        - destruct d as [[L nf]|].
          + destruct At1 as [Hf1 _], At2 as [Hf2 _].
            destruct (clf_decision_spec g_ok f_ok S1 HS1 A vw True True _ _ I E1n E1p E2 Lw a1 L nf Ha1 e1 Hf1 X Ho) as [(Hx & c & -> & K)|(Hx & ->)],
              (clf_decision_spec g_ok f_ok S2 HS2 A vw True True _ _ I E1n E1p E2 Lw a2 L nf Ha2 e2 Hf2 X Ho) as [(Hx' & c' & -> & K')|(Hx' & ->)]; try done.
            split; [|by apply esim_keep]. cbn [fst]. destruct Hs as (_ & -> & _). rewrite Haa. done.
          + cbn in At1, At2. subst e1 e2. unfold clf_decision. rewrite !check_batch_unfitted by done. cbn. rewrite !decide_True by done. done.
        - destruct d as [[L nf]|].
          + destruct At1 as [Hf1 _], At2 as [Hf2 _]. destruct Hsc as (Hx & Hl & Hm).
            destruct (clf_evaluate_spec g_ok f_ok S1 HS1 A vw True True _ _ I E1n E1p E2 Lw a1 L nf Ha1 e1 Hf1 X y Hx Hl Hm) as (c & -> & K).
            destruct (clf_evaluate_spec g_ok f_ok S2 HS2 A vw True True _ _ I E1n E1p E2 Lw a2 L nf Ha2 e2 Hf2 X y Hx Hl Hm) as (c' & -> & K').
            split; [|by apply esim_keep]. cbn [fst]. unfold mismatches. destruct Hs as (_ & -> & _). rewrite Haa. done.
          + cbn in At1, At2. subst e1 e2. unfold clf_evaluate. cbn [construct e_params] in *. rewrite (pj_labels _ _ Hpp).
            apply orel_same. intros z Hz. by destruct (Hnl z).
      Qed.
    End Clf.

    (** ** Regressor *)
    Section Reg.
      Context (a1 a2 : reg_args) (Ha1 : reg_valid a1) (Ha2 : reg_valid a2) (Haa : reg_args_alike a1 a2).
      Context (HN : N = ra_states a1) (Hw : w = width_of (ra_counting a1) (ra_states a1)).
      Notation fitted1 := (reg_fitted g_ok S1 A True True I a1).
      Notation fitted2 := (reg_fitted g_ok S2 A True True I a2).
      Lemma ralike_N : N = ra_states a2. Proof. rewrite Haa. done. Qed.
      Lemma ralike_w : w = width_of (ra_counting a2) (ra_states a2). Proof. rewrite Haa. done. Qed.
      Lemma rcore_alike S nf st : reg_core g_ok S A True True I a2 nf st -> reg_core g_ok S A True True I a1 nf st.
      Proof. rewrite Haa. intros []. by constructor. Qed.

      Lemma reg_online_sim (e1 : est1) (e2 : est2) nf X y epochs : fitted1 nf e1 -> fitted2 nf e2 -> esim e1 e2 ->
        Forall (v_ok vw nf) X -> length y = length X -> Forall (fun v => 0 <= v <= ra_threshold a1) y ->
        orel (fun r1 r2 => r2.1 = r1.1 /\ esim r1.2 r2.2) (reg_fit_online S1 A e1 X y epochs) (reg_fit_online S2 A e2 X y epochs).
      Proof.
        intros (_ & Hd1 & Hc1) (_ & Hd2 & Hc2) (Hp & Et & Eg & Ef & Hcs) HX Hly Hy. unfold reg_fit_online.
        rewrite (pj_reg_outputs _ _ Hp), (pj_threshold _ _ Hp), (pj_maxw _ _ Hp), (pj_states _ _ Hp), (pj_s _ _ Hp), (pj_boost _ _ Hp), (pj_verbose _ _ Hp),
          (pj_loss _ _ Hp), (pj_C1 _ _ Hp), (pj_box _ _ Hp).
        pose proof Hd1 as [Hh1 Hpf]. pose proof Hd2 as [Hh2 _].
        pose proof (P_reg_n a1 Ha1 _ Hh1) as En. destruct Hh1 as [h_cl h_st h_s h_thr h_w h_mw h_b h_nj h_v h_ct h_tl h_l h_c h_bm _].
        rewrite En, h_thr, h_mw, h_st, h_s, h_b, h_tl, h_nj, h_v, h_l, h_c, h_bm, (rh_tile _ _ Hh2), (rh_njobs _ _ Hh2). cbn [obind].
        rewrite <- HN. apply orel_same. intros loss _. cbn [obind]. eapply orel_bind.
        { apply (reg_epochs_sim g_ok f_ok HR S1 HS1 S2 HS2 A vw w N I E1n E1p E2 Lw a1 nf Ha1); try done.
          - split; [|split; [exact Hc1|by apply rcore_alike]]. split; [cbn; congruence|done].
          - apply Ha1. - apply Ha2. }
        intros [[g s] c] [[g' s'] c'] _ _ ([Eq Hcs'] & _ & _). cbn [fst snd] in *. injection Eq as -> ->.
        split; [done|]. split; [done|]. done.
      Qed.
      Lemma reg_online_ok S (e : est (a_pol A) (eS S) G F) X y epochs st e' : reg_fit_online S A e X y epochs = Ret (st, e') -> st = S_OK.
      Proof.
        unfold reg_fit_online. intros Q1. repeat (apply obind_ret_inv in Q1 as (? & _ & Q1)).
        match type of Q1 with context[match ?x with _ => _ end] => destruct x as [[? ?] ?] end. by injection Q1.
      Qed.

      Lemma reg_fit_sim (e1 : est1) (e2 : est2) X y epochs : Forall (v_phys vw) X ->
        reg_has a1 (e_params e1) -> reg_has a2 (e_params e2) ->
        (forall nf, same_but_jobs (reg_fit_params nf (e_params e1)) (reg_fit_params nf (e_params e2))) ->
        weights_pre (ra_weighted a1) (ra_max_weight a1) (ta_weights (e_ta e1)) -> ta_weights (e_ta e2) = ta_weights (e_ta e1) ->
        orel (fit_sim e1 e2) (reg_fit S1 A e1 X y epochs) (reg_fit S2 A e2 X y epochs).
      Proof.
        intros HX Hh1 Hh2 Hpp Hws Ew. unfold reg_fit.
        destruct (check_X_y_spec g_ok A vw True True w N I E1n E1p E2 Lw X y HX) as [(nf & Hd & E & Ef)|[Hno E]]; rewrite E; cbn [obind].
        2:{ rewrite !decide_True by done. split; [done|]. right. done. }
        rewrite !(decide_False (P := S_OK <> S_OK)) by (intros H; by apply H).
        rewrite (rh_threshold _ _ Hh1), (rh_threshold _ _ Hh2). cbn [obind].
        assert (ra_threshold a2 = ra_threshold a1) as -> by (by rewrite Haa).
        destruct (check_response_spec a1 y) as [[H0 Ecl]|[H0 Ecl]]; rewrite Ecl.
        2:{ rewrite !decide_True by done. split; [done|]. right. done. }
        rewrite !(decide_False (P := S_OK <> S_OK)) by (intros H; by apply H).
        rewrite Ef. cbn [obind]. apply orel_same. intros nfz [-> _]%ci32_inv.
        fold (reg_fit_params nf (e_params e1)). fold (reg_fit_params nf (e_params e2)).
        pose proof (reg_init_spec g_ok f_ok HR S1 A vw True True w N I E1n E1p E2 Lw a1 Ha1 Hw
          (with_params S1 A (reg_fit_params nf (e_params e1)) e1) nf (reg_fit_params_has _ _ _ Hh1)) as W1.
        pose proof (reg_init_spec g_ok f_ok HR S2 A vw True True w N I E1n E1p E2 Lw a2 Ha2 ralike_w
          (with_params S2 A (reg_fit_params nf (e_params e2)) e2) nf (reg_fit_params_has _ _ _ Hh2)) as W2.
        specialize (W1 ltac:(cbn [with_params e_params]; apply P_features_insert) Hws (reg_side_true g_ok A vw w a1 nf)).
        specialize (W2 ltac:(cbn [with_params e_params]; apply P_features_insert)).
        specialize (W2 ltac:(cbn [with_params e_ta]; rewrite Ew, Haa; exact Hws) (reg_side_true g_ok A vw w a2 nf)).
        eapply orel_bind; [apply reg_init_sim; cbn [with_params e_params e_ta]; [apply Hpp|done]|].
        intros i1 i2 Ei1 Ei2 Hi. rewrite Ei1 in W1. rewrite Ei2 in W2. cbn [wp] in W1, W2.
        eapply orel_mono_eq; [apply (reg_online_sim i1 i2 nf); try done; try apply Hd; try apply W1; try apply W2|].
        intros [st1 f1] [st2 f2] Q1 Q2 [Es Hsim]. cbn [fst snd] in *. subst st2. split; [done|]. left. split; [|done].
        by eapply reg_online_ok.
      Qed.
      Lemma reg_checked_sim (e1 : est1) (e2 : est2) nf X y epochs : Forall (v_phys vw) X ->
        fitted1 nf e1 -> fitted2 nf e2 -> esim e1 e2 ->
        orel (fun r1 r2 => r2.1 = r1.1 /\ esim r1.2 r2.2) (reg_fit_online_checked S1 A e1 X y epochs) (reg_fit_online_checked S2 A e2 X y epochs).
      Proof.
        intros HX Hf1 Hf2 Hs. pose proof Hf1 as (_ & Hd1 & _). pose proof Hf2 as (_ & Hd2 & _). unfold reg_fit_online_checked.
        destruct (check_X_y_spec g_ok A vw True True w N I E1n E1p E2 Lw X y HX) as [(nf' & Hd & E & Ef)|[Hno E]]; rewrite E; cbn [obind].
        2:{ rewrite !decide_True by done. done. }
        rewrite !(decide_False (P := S_OK <> S_OK)) by (intros H; by apply H).
        rewrite (rd_features _ _ _ Hd1), (rd_features _ _ _ Hd2). cbn [obind]. unfold check_X. rewrite Ef. cbn [obind].
        destruct (Z.eqb_spec (Z.of_nat nf') (Z.of_nat nf)) as [Hnf|Hnf].
        2:{ rewrite !decide_True by done. done. }
        rewrite !(decide_False (P := S_OK <> S_OK)) by (intros H; by apply H). assert (nf' = nf) as -> by lia.
        rewrite (rh_threshold _ _ (rd_has _ _ _ Hd1)), (rh_threshold _ _ (rd_has _ _ _ Hd2)). cbn [obind].
        assert (ra_threshold a2 = ra_threshold a1) as -> by (by rewrite Haa).
        destruct (check_response_spec a1 y) as [[H0 Ecl]|[H0 Ecl]]; rewrite Ecl.
        2:{ rewrite !decide_True by done. done. }
        rewrite !(decide_False (P := S_OK <> S_OK)) by (intros H; by apply H).
        apply (reg_online_sim e1 e2 nf); try done; try apply Hd.
      Qed.

      Notation at1 := (reg_at g_ok S1 A True True I a1).
      Notation at2 := (reg_at g_ok S2 A True True I a2).
      Lemma reg_step_sim p1 p2 d (e1 : est1) (e2 : est2) o : reg_has a1 p1 -> reg_has a2 p2 ->
        at1 p1 d e1 -> at2 p2 d e2 -> esim e1 e2 -> reg_op_phys A vw o ->
        orel res_sim (reg_step S1 A e1 o) (reg_step S2 A e2 o).
      Proof.
        intros Hh1 Hh2 At1 At2 Hs Ho. pose proof Hs as [Hpp _].
        assert (forall X y epochs, Forall (v_phys vw) X -> orel res_sim (reg_fit S1 A e1 X y epochs) (reg_fit S2 A e2 X y epochs)) as Hfit.
        { intros X y epochs HX. destruct (reg_at_has _ S1 A _ _ _ a1 p1 d e1 Hh1 At1) as (B1 & B2 & B3).
          destruct (reg_at_has _ S2 A _ _ _ a2 p2 d e2 Hh2 At2) as (D1 & D2 & D3).
          eapply orel_mono; [apply (reg_fit_sim e1 e2 X y epochs); try done|].
          - intros nf. unfold reg_fit_params. by apply same_but_jobs_insert.
          - by destruct Hs as (_ & -> & _).
          - intros [st1 f1] [st2 f2] [E [[E' Hs']|(E' & E1 & E2')]]; (split; [done|]); cbn [fst snd] in *; [done|]. by subst. }
        destruct o as [X y epochs|X y epochs|x|X]; unfold reg_step; apply res_sim_map.
        - by apply Hfit.
        - unfold reg_partial_fit. assert (is_fitted A (e_ta e2) = is_fitted A (e_ta e1)) as -> by (by destruct Hs as (_ & -> & _)).
          destruct d as [nf|].
          + destruct At1 as [Hf1 _], At2 as [Hf2 _].
            rewrite (reg_is_fitted g_ok S1 A vw True True _ _ I E1n E1p E2 Lw a1 nf Ha1 e1 Hf1).
            eapply orel_mono; [by apply (reg_checked_sim e1 e2 nf)|]. done.
          + cbn in At1. subst e1. rewrite is_fitted_construct. by apply Hfit.
        - destruct d as [nf|].
          + destruct At1 as [Hf1 _], At2 as [Hf2 _].
            destruct (reg_predict1_spec g_ok S1 HS1 A vw True True _ _ I E1n E1p E2 Lw a1 nf Ha1 e1 Hf1 x Ho) as [(Hx & c & -> & K)|(Hx & ->)],
              (reg_predict1_spec g_ok S2 HS2 A vw True True _ _ I E1n E1p E2 Lw a2 nf Ha2 e2 Hf2 x Ho) as [(Hx' & c' & -> & K')|(Hx' & ->)]; try done.
            split; [|by apply esim_keep]. cbn [fst]. destruct Hs as (_ & -> & _). rewrite Haa. done.
          + cbn in At1, At2. subst e1 e2. unfold reg_predict1. rewrite !check_single_unfitted by done. cbn. rewrite !decide_True by done. done.
        - destruct d as [nf|].
          + destruct At1 as [Hf1 _], At2 as [Hf2 _].
            destruct (reg_predict_spec g_ok S1 HS1 A vw True True _ _ I E1n E1p E2 Lw a1 nf Ha1 e1 Hf1 X Ho) as [(Hx & c & -> & K)|(Hx & ->)],
              (reg_predict_spec g_ok S2 HS2 A vw True True _ _ I E1n E1p E2 Lw a2 nf Ha2 e2 Hf2 X Ho) as [(Hx' & c' & -> & K')|(Hx' & ->)]; try done.
            split; [|by apply esim_keep]. cbn [fst]. destruct Hs as (_ & -> & _). rewrite Haa. done.
          + cbn in At1, At2. subst e1 e2. unfold reg_predict. rewrite !check_batch_unfitted by done. cbn. rewrite !decide_True by done. done.
      Qed.
    End Reg.
  End Laws.
End Sim.
