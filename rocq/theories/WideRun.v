(** * Lockstep of whole histories of two estimators that store their automata in cells of different widths,
      or of which one has (trivial) weights and the other none. *)
From Verif Require Export WideUpdate SimRun.
From stdpp Require Import list.
Local Open Scope Z_scope.

Section WideRun.
  Context {R : rnd} (g_ok : eG R -> Prop) (f_ok : eF R -> Prop) (HR : rnd_ok R g_ok f_ok).
  Context (S1 : sch) (HS1 : sch_ok S1) (S2 : sch) (HS2 : sch_ok S2).
  Context (A : algo R) (vw : aview A).
  Context (w1 w2 N : Z) (I1 I2 : nat -> nat -> nmatrix -> a_pol A -> Prop).
  Context (E1n : nat -> coin_tosser -> a_smp A -> nat -> amp A -> amp A -> Prop).
  Context (E1p : bool -> nat -> coin_tosser -> a_smp A -> nat -> amp A -> amp A -> Prop).
  Context (E2 : nat -> a_smp A -> nat -> amp A -> amp A -> Prop).
  Context (Lw1 : laws A g_ok vw True True w1 N I1 E1n E1p E2) (Lw2 : laws A g_ok vw True True w2 N I2 E1n E1p E2).
  Context (WL : wide_laws A g_ok vw w1 w2 N I1 I2).
  Notation est1 := (est (a_pol A) (eS S1) (eG R) (eF R)).
  Notation est2 := (est (a_pol A) (eS S2) (eG R) (eF R)).

  (** ** Classifier *)
  Section Clf.
    Context (a1 a2 : clf_args) (Ha1 : clf_valid a1) (Ha2 : clf_valid a2) (Haa : clf_wide a1 a2).
    Context (HN : N = ca_states a1) (Hw1 : w1 = width_of (ca_counting a1) (ca_states a1)) (Hw2 : w2 = width_of (ca_counting a2) (ca_states a2)).
    Notation fitted1 := (clf_fitted g_ok f_ok S1 A True True I1 a1).
    Notation fitted2 := (clf_fitted g_ok f_ok S2 A True True I2 a2).
    Notation at1 := (clf_at g_ok f_ok S1 A True True I1 a1).
    Notation at2 := (clf_at g_ok f_ok S2 A True True I2 a2).

    Lemma wide_N : N = ca_states a2. Proof using HN Haa. rewrite (wd_states _ _ Haa). done. Qed.
    (** the same model, and the same randomness ahead *)
    Definition fwide (L nf : nat) (e1 : est1) (e2 : est2) : Prop :=
      swide A vw a1 a2 L nf (e_ta e1) (e_ta e2) /\ e_igen e2 = e_igen e1 /\ e_fgen e2 = e_fgen e1 /\ ct_sim (ca_ct (e_cache e1)) (ca_ct (e_cache e2)).
    Definition ewide (d : option (nat * nat)) (e1 : est1) (e2 : est2) : Prop :=
      match d with None => True | Some (L, nf) => fwide L nf e1 e2 end.

    Lemma clf_init_wide (e1 : est1) (e2 : est2) L nf : (1 <= L)%nat -> clf_has a1 (e_params e1) -> clf_has a2 (e_params e2) ->
      P_number_of_labels (e_params e1) = Ret (Z.of_nat L) -> P_number_of_labels (e_params e2) = Ret (Z.of_nat L) ->
      P_number_of_features (e_params e1) = Ret (Z.of_nat nf) -> P_number_of_features (e_params e2) = Ret (Z.of_nat nf) ->
      weights_alike a1 a2 (ta_weights (e_ta e1)) (ta_weights (e_ta e2)) ->
      both (fwide L nf) (clf_initialize S1 A e1) (clf_initialize S2 A e2).
    Proof using HR WL Ha1 Ha2 Haa Hw1 Hw2.
      intros HL Hh1 Hh2 HpL1 HpL2 Hpf1 Hpf2 Hws. unfold clf_initialize, initialize_state.
      pose proof (P_opl a1 Ha1 _ Hh1) as Eo1. pose proof (P_opl a2 Ha2 _ Hh2) as Eo2.
      destruct Hh1 as [h_cl h_st h_s h_thr h_w h_mw h_b h_nj h_v h_ct h_tl (z & Ez & h_seed)].
      destruct Hh2 as [k_cl k_st k_s k_thr k_w k_mw k_b k_nj k_v k_ct k_tl (z' & Ez' & k_seed)].
      assert (z' = z) as -> by (pose proof (wd_seed _ _ Haa); congruence).
      destruct (clf_opl_facts a1 Ha1) as (Ecl & Eq & Hev & Hopl).
      rewrite h_v, h_seed, h_st, k_v, k_seed, k_st. cbn [obind]. unfold P_clf_clauses, clf_cache_reset, P_clf_outputs.
      rewrite HpL1, HpL2, h_cl, k_cl, Eo1, Eo2, (wide_opl a1 a2 Haa), (wd_clauses _ _ Haa). cbn [obind].
      apply both_same. intros ncl [-> _]%ci32_inv. apply both_same. intros nout [-> Hno]%ci32_inv.
      rewrite Hpf1, Hpf2, h_ct, k_ct, h_w, k_w, h_s, k_s, (wd_s _ _ Haa). cbn [obind].
      replace (Z.to_nat (Z.of_nat L * ca_clauses a1)) with (2 * (L * clf_opl a1))%nat by lia. rewrite Nat2Z.id.
      fold (width_of (ca_counting a1) (ca_states a1)). fold (width_of (ca_counting a2) (ca_states a2)). rewrite <- Hw1, <- Hw2.
      eapply both_bind; [apply (wl_init _ _ _ _ _ _ _ _ WL (L * clf_opl a1) nf); [apply (g_init_ok R g_ok f_ok HR)|nia]|].
      intros [[m1 q1] g1] [[m2 q2] g2] _ _ [Hc Eg]. cbn [fst snd] in *. subst g2. 
      unfold P_clf_outputs. rewrite ?HpL1, ?HpL2, ?Eo1, ?Eo2, ?(wide_opl a1 a2 Haa). cbn [obind].
      rewrite ci32_ret by done. cbn [obind]. eapply (both_bind (fun c1 c2 => ct_sim (ca_ct c1) (ca_ct c2))).
      { rewrite ?h_s, ?k_s, ?(wd_s _ _ Haa), ?Hpf1, ?Hpf2. cbn [obind]. apply both_same. intros ct _. apply both_ret. cbn. unfold ct_sim, same_rate. done. }
      intros c1 c2 _ _ Hct. apply both_ret. split; [|done]. split; [exact Hc|]. cbn [e_ta ta_weights].
      intros Hsw. pose proof Hsw as [-> _]. rewrite (Hws Hsw). done.
    Qed.

    Lemma clf_online_wide (e1 : est1) (e2 : est2) L nf X y epochs : fitted1 L nf e1 -> fitted2 L nf e2 -> fwide L nf e1 e2 ->
      Forall (v_ok vw nf) X -> length y = length X -> Forall (fun v => 0 <= v < Z.of_nat L) y ->
      both (fun r1 r2 => fwide L nf r1.2 r2.2) (clf_fit_online S1 A e1 X y epochs) (clf_fit_online S2 A e2 X y epochs).
    Proof using HR HS1 HS2 Lw1 Lw2 WL Ha1 Ha2 Haa HN.
      intros (_ & Hd1 & Hc1) (_ & Hd2 & Hc2) (Hsw & Eg & Ef & Hct) HX Hly Hy. unfold clf_fit_online.
      pose proof (clf_n_bound a1 L nf Ha1 _ Hd1) as [Hn _].
      pose proof Hd1 as [Hh1 HpL1 Hpf1 _ _]. pose proof Hd2 as [Hh2 HpL2 Hpf2 _ _].
      pose proof (P_opl a1 Ha1 _ Hh1) as Eo1. pose proof (P_opl a2 Ha2 _ Hh2) as Eo2.
      destruct Hh1 as [h_cl h_st h_s h_thr h_w h_mw h_b h_nj h_v h_ct h_tl _].
      destruct Hh2 as [k_cl k_st k_s k_thr k_w k_mw k_b k_nj k_v k_ct k_tl _].
      rewrite HpL1, Eo1, h_thr, h_mw, h_st, h_s, h_b, h_tl, h_nj, h_v, HpL2, Eo2, k_thr, k_mw, k_st, k_s, k_b, k_tl, k_nj, k_v. cbn [obind].
      rewrite <- wide_N, <- HN. eapply both_bind.
      { apply (clf_epochs_wide g_ok f_ok HR S1 HS1 S2 HS2 A vw w1 w2 N I1 I2 E1n E1p E2 Lw1 Lw2 WL a1 a2 Haa L nf Ha1 Ha2 Hn); try done.
        - split; [done|]. split; [cbn [fst snd]; congruence|]. done.
        - apply Ha1. - apply Ha2. }
      intros [[[g f] s] c] [[[g' f'] s'] c'] _ _ (X1 & X2 & X3 & _). cbn [fst snd] in *. injection X2 as -> ->.
      apply both_ret. split; [done|]. done.
    Qed.

    Lemma clf_fit_wide (e1 : est1) (e2 : est2) X y ml epochs : Forall (v_phys vw) X ->
      clf_has a1 (e_params e1) -> clf_has a2 (e_params e2) ->
      weights_pre (ca_weighted a1) (ca_max_weight a1) (ta_weights (e_ta e1)) -> weights_pre (ca_weighted a2) (ca_max_weight a2) (ta_weights (e_ta e2)) ->
      weights_alike a1 a2 (ta_weights (e_ta e1)) (ta_weights (e_ta e2)) ->
      both (fun r1 r2 => r1.1 = S_OK -> fwide (Z.to_nat (n_labels y ml)) (features_of X) r1.2 r2.2) (clf_fit S1 A e1 X y ml epochs) (clf_fit S2 A e2 X y ml epochs).
    Proof using HR HS1 HS2 Lw1 Lw2 WL Ha1 Ha2 Haa HN Hw1 Hw2.
      intros HX Hh1 Hh2 Hws1 Hws2 Hws. unfold clf_fit.
      destruct (check_X_y_spec g_ok A vw True True w1 N I1 E1n E1p E2 Lw1 X y HX) as [(nf & Hd & E & Ef)|[Hno E]]; rewrite E; cbn [obind].
      2:{ rewrite !decide_True by done. by apply both_ret. }
      rewrite !(decide_False (P := S_OK <> S_OK)) by (intros H; by apply H).
      apply both_same. intros hi Ehi. apply both_same. intros hi1 [-> _]%ci32_inv.
      apply both_same. intros st Est. destruct (decide (st <> S_OK)) as [Hst|Hst].
      { by apply both_ret. }
      assert (y <> []) as Hyne. { intros ->. destruct Hd as [[Hne _] El]. destruct X; [done|]. cbn in El. lia. }
      destruct (check_labels_spec y Hyne) as [[H0 Ecl]|[H0 Ecl]]; rewrite Ecl in Est; injection Est as <-; [|exfalso; by apply Hst].
      rewrite Ef. cbn [obind]. apply both_same. intros nfz [-> _]%ci32_inv.
      rewrite list_max_label in Ehi by done. injection Ehi as <-.
      destruct (max_label_spec y H0) as (Hm0 & HFm & _).
      fold (n_labels y ml). assert (1 <= n_labels y ml) as HL1 by (unfold n_labels; lia).
      rewrite (features_of_ok g_ok A vw True True w1 N I1 E1n E1p E2 Lw1 _ _ _ Hd).
      set (L := Z.to_nat (n_labels y ml)) in *. assert (Z.of_nat L = n_labels y ml) as EL by (unfold L; lia). rewrite <- EL.
      fold (clf_fit_params L nf (e_params e1)). fold (clf_fit_params L nf (e_params e2)).
      pose proof (clf_init_spec g_ok f_ok HR S1 A vw True True w1 N I1 E1n E1p E2 Lw1 a1 Ha1 Hw1
        (with_params S1 A (clf_fit_params L nf (e_params e1)) e1) L nf ltac:(lia) (clf_fit_params_has _ _ _ _ Hh1)) as W1.
      pose proof (clf_init_spec g_ok f_ok HR S2 A vw True True w2 N I2 E1n E1p E2 Lw2 a2 Ha2 Hw2
        (with_params S2 A (clf_fit_params L nf (e_params e2)) e2) L nf ltac:(lia) (clf_fit_params_has _ _ _ _ Hh2)) as W2.
      specialize (W1 ltac:(cbn [with_params e_params]; unfold clf_fit_params; rewrite P_labels_insert_ne; apply P_labels_insert)
        ltac:(cbn [with_params e_params]; apply P_features_insert) Hws1 (clf_side_true g_ok A vw w1 a1 L nf)).
      specialize (W2 ltac:(cbn [with_params e_params]; unfold clf_fit_params; rewrite P_labels_insert_ne; apply P_labels_insert)
        ltac:(cbn [with_params e_params]; apply P_features_insert) Hws2 (clf_side_true g_ok A vw w2 a2 L nf)).
      eapply both_bind.
      { apply (clf_init_wide (with_params S1 A (clf_fit_params L nf (e_params e1)) e1) (with_params S2 A (clf_fit_params L nf (e_params e2)) e2) L nf); try lia;
          cbn [with_params e_params e_ta]; try done; try (by apply clf_fit_params_has); try apply P_features_insert;
          unfold clf_fit_params; rewrite P_labels_insert_ne; apply P_labels_insert. }
      intros i1 i2 Ei1 Ei2 Hi. rewrite Ei1 in W1. rewrite Ei2 in W2. cbn [wp] in W1, W2.
      eapply both_mono; [apply (clf_online_wide i1 i2 L nf); try done; try apply Hd; try apply W1; try apply W2|by intros].
      rewrite Forall_forall in *. intros v Hv. specialize (H0 v Hv). specialize (HFm v Hv). cbn in *. unfold n_labels in EL. lia.
    Qed.

    Lemma clf_checked_wide (e1 : est1) (e2 : est2) L nf X y ml epochs : Forall (v_phys vw) X ->
      fitted1 L nf e1 -> fitted2 L nf e2 -> fwide L nf e1 e2 ->
      both (fun r1 r2 => fwide L nf r1.2 r2.2) (clf_fit_online_checked S1 A e1 X y ml epochs) (clf_fit_online_checked S2 A e2 X y ml epochs).
    Proof using HR HS1 HS2 Lw1 Lw2 WL Ha1 Ha2 Haa HN.
      intros HX Hf1 Hf2 Hs. pose proof Hf1 as (_ & Hd1 & _). pose proof Hf2 as (_ & Hd2 & _). unfold clf_fit_online_checked.
      destruct (check_X_y_spec g_ok A vw True True w1 N I1 E1n E1p E2 Lw1 X y HX) as [(nf' & Hd & E & Ef)|[Hno E]]; rewrite E; cbn [obind].
      2:{ rewrite !decide_True by done. by apply both_ret. }
      rewrite !(decide_False (P := S_OK <> S_OK)) by (intros H; by apply H).
      rewrite (cd_features _ _ _ _ Hd1), (cd_features _ _ _ _ Hd2). cbn [obind]. unfold check_X. rewrite Ef. cbn [obind].
      destruct (Z.eqb_spec (Z.of_nat nf') (Z.of_nat nf)) as [Hnf|Hnf].
      2:{ rewrite !decide_True by done. by apply both_ret. }
      rewrite !(decide_False (P := S_OK <> S_OK)) by (intros H; by apply H). assert (nf' = nf) as -> by lia.
      rewrite (cd_labels _ _ _ _ Hd1), (cd_labels _ _ _ _ Hd2). cbn [obind].
      apply both_same. intros ml' [-> _]%ci32_inv. apply both_same. intros st Est.
      assert (y <> []) as Hyne. { intros ->. destruct Hd as [[Hne _] El]. destruct X; [done|]. cbn in El. lia. }
      destruct (check_labels_max_spec y (Z.of_nat L - 1) Hyne) as [[H0 Ecl]|[H0 Ecl]]; rewrite Ecl in Est; injection Est as <-.
      2:{ rewrite !decide_True by done. by apply both_ret. }
      rewrite !(decide_False (P := S_OK <> S_OK)) by (intros H; by apply H).
      apply (clf_online_wide e1 e2 L nf); try done; try apply Hd.
      eapply Forall_impl; [exact H0|]. cbn. intros; lia.
    Qed.

    Lemma fwide_keep (e1 : est1) (e2 : est2) L nf c1 c2 : fwide L nf e1 e2 -> keep S1 (e_cache e1) c1 -> keep S2 (e_cache e2) c2 ->
      fwide L nf (with_cache S1 A c1 e1) (with_cache S2 A c2 e2).
    Proof using. intros (X1 & X2 & X3 & X4) (K1 & K2 & K3 & K4) (K1' & K2' & K3' & K4'). unfold fwide. cbn [with_cache e_cache e_ta e_igen e_fgen]. rewrite K2, K2'. done. Qed.
    Lemma ewide_weights p1 p2 d e1 e2 : at1 p1 d e1 -> at2 p2 d e2 -> ewide d e1 e2 -> weights_alike a1 a2 (ta_weights (e_ta e1)) (ta_weights (e_ta e2)).
    Proof using. destruct d as [[L nf]|]; cbn; [intros _ _ ([_ H] & _); exact H|]. intros -> -> _ _. done. Qed.

    (** answers *)
    Lemma label_wide L nf (e1 : est1) (e2 : est2) x : fitted1 L nf e1 -> fitted2 L nf e2 -> fwide L nf e1 e2 ->
      clf_votes vw a2 L nf (e_ta e2) x = clf_votes vw a1 L nf (e_ta e1) x /\ clf_label vw a2 L nf (e_ta e2) x = clf_label vw a1 L nf (e_ta e1) x.
    Proof using WL Ha1 Ha2 Haa.
      intros (_ & _ & [_ B2 _ _ _ _ _]) (_ & _ & [_ D2 _ _ _ _ _]) (Hs & _). cbn [fst snd] in *. rewrite (wide_opl a1 a2 Haa) in D2.
      destruct (votes_wide g_ok A vw w1 w2 N I1 I2 WL a1 a2 Haa L nf Ha1 Ha2 _ _ x Hs B2 D2) as [E _]. unfold clf_label. by rewrite E.
    Qed.
    Lemma answer_wide p1 p2 d (e1 : est1) (e2 : est2) o r1 r2 : at1 p1 d e1 -> at2 p2 d e2 -> ewide d e1 e2 -> evaluate_scope A vw d o ->
      clf_answer A vw a1 d (e_ta e1) o r1 -> clf_answer A vw a2 d (e_ta e2) o r2 -> r2 = r1.
    Proof using WL Ha1 Ha2 Haa.
      clear Lw1 Lw2 HN Hw1 Hw2.
      intros At1 At2 He Hsc. destruct d as [[L nf]|].
      - cbn [clf_at ewide] in *. destruct At1 as [Hf1 _], At2 as [Hf2 _].
        assert (forall x, clf_label vw a2 L nf (e_ta e2) x = clf_label vw a1 L nf (e_ta e1) x) as EL by (intros x; by apply label_wide).
        assert (forall x, clf_votes vw a2 L nf (e_ta e2) x = clf_votes vw a1 L nf (e_ta e1) x) as EV by (intros x; by apply label_wide).
        destruct o as [X y ml epochs|X y ml epochs|x|X|x|X|X y]; cbn [clf_answer]; try (intros [[? ->]|[? ->]] [[? ->]|[? ->]]; done).
        + intros [[? ->]|[? ->]] [[? ->]|[? ->]]; try done. by rewrite EL.
        + intros [[? ->]|[? ->]] [[? ->]|[? ->]]; try done. do 2 f_equal. apply map_ext. done.
        + intros [[? ->]|[? ->]] [[? ->]|[? ->]]; try done. by rewrite EV.
        + intros [[? ->]|[? ->]] [[? ->]|[? ->]]; try done. do 2 f_equal. apply map_ext. done.
        + destruct Hsc as (Hx & Hl & Hm). intros H1 H2. rewrite (H1 Hx Hl Hm), (H2 Hx Hl Hm). do 5 f_equal.
          apply list_filter_iff. intros [x yi]. by rewrite EL.
      - destruct o as [X y ml epochs|X y ml epochs|x|X|x|X|X y]; cbn [clf_answer]; try (intros [[? ->]|[? ->]] [[? ->]|[? ->]]; done); intros; by subst.
    Qed.

    Lemma clf_step_wide p1 p2 d (e1 : est1) (e2 : est2) o : clf_has a1 p1 -> clf_has a2 p2 ->
      (forall z, P_number_of_labels p1 <> Ret z) -> (forall z, P_number_of_labels p2 <> Ret z) ->
      at1 p1 d e1 -> at2 p2 d e2 -> ewide d e1 e2 -> clf_op_phys A vw o -> evaluate_scope A vw d o ->
      both (fun r1 r2 => r2.1 = r1.1 /\ ewide (clf_dims_after d o r1.1) r1.2 r2.2 /\ at1 p1 (clf_dims_after d o r1.1) r1.2 /\ at2 p2 (clf_dims_after d o r1.1) r2.2)
        (clf_step S1 A e1 o) (clf_step S2 A e2 o).
    Proof using All.
      intros Hh1 Hh2 Hnl1 Hnl2 At1 At2 He Ho Hsc [r1 f1] [r2 f2] Q1 Q2. cbn [fst snd].
      pose proof (clf_step_spec g_ok f_ok HR S1 HS1 A vw True True w1 N I1 E1n E1p E2 Lw1 a1 Ha1 HN Hw1 p1 _ e1 o Hh1 Hnl1 At1 Ho (clf_op_side_true _ _ _ _ _ _ _)) as W1.
      pose proof (clf_step_spec g_ok f_ok HR S2 HS2 A vw True True w2 N I2 E1n E1p E2 Lw2 a2 Ha2 wide_N Hw2 p2 _ e2 o Hh2 Hnl2 At2 Ho (clf_op_side_true _ _ _ _ _ _ _)) as W2.
      rewrite Q1 in W1. rewrite Q2 in W2. cbn [wp] in W1, W2. destruct W1 as (B1 & An1 & Fr1), W2 as (B2 & An2 & Fr2).
      assert (r2 = r1) as -> by (eapply answer_wide; [exact At1|exact At2|done|done|done|done]).
      split; [done|]. split; [|done].
      destruct (clf_at_has _ _ S1 A _ _ _ a1 p1 d e1 Hh1 At1) as (C1 & C2 & _).
      destruct (clf_at_has _ _ S2 A _ _ _ a2 p2 d e2 Hh2 At2) as (D1 & D2 & _).
      pose proof (ewide_weights p1 p2 d e1 e2 At1 At2 He) as Hws.
      destruct o as [X y ml epochs|X y ml epochs|x|X|x|X|X y]; cbn [clf_frame clf_dims_after] in *.
      - unfold clf_step in Q1, Q2. apply obind_ret_inv in Q1 as ([st1 g1] & Q1 & [= <- <-]). apply obind_ret_inv in Q2 as ([st2 g2] & Q2 & [= <- <-]).
        pose proof (clf_fit_wide e1 e2 X y ml epochs Ho C1 D1 C2 D2 Hws _ _ Q1 Q2) as H. cbn [fst snd] in H.
        destruct (decide (st2 = S_OK)) as [->|Hst]; [exact (H eq_refl)|].
        destruct Fr1 as [Fr1|Fr1]; [by injection Fr1|]. destruct Fr2 as [Fr2|Fr2]; [by injection Fr2|]. rewrite Fr1, Fr2. destruct st2; done.
      - unfold clf_step in Q1, Q2. apply obind_ret_inv in Q1 as ([st1 g1] & Q1 & [= <- <-]). apply obind_ret_inv in Q2 as ([st2 g2] & Q2 & [= <- <-]).
        unfold clf_partial_fit in Q1, Q2. destruct d as [[L nf]|].
        + pose proof At1 as [Hf1 _]. pose proof At2 as [Hf2 _].
          rewrite (clf_is_fitted g_ok f_ok S1 A vw True True _ _ I1 E1n E1p E2 Lw1 a1 L nf Ha1 e1 Hf1) in Q1.
          rewrite (clf_is_fitted g_ok f_ok S2 A vw True True _ _ I2 E1n E1p E2 Lw2 a2 L nf Ha2 e2 Hf2) in Q2.
          pose proof (clf_checked_wide e1 e2 L nf X y ml epochs Ho Hf1 Hf2 He _ _ Q1 Q2) as H. cbn [fst snd] in H. destruct st2; exact H.
        + assert (is_fitted A (e_ta e1) = false) as Z1 by (cbn in At1; subst e1; apply is_fitted_construct).
          assert (is_fitted A (e_ta e2) = false) as Z2 by (cbn in At2; subst e2; apply is_fitted_construct).
          rewrite Z1 in Q1. rewrite Z2 in Q2.
          pose proof (clf_fit_wide e1 e2 X y ml epochs Ho C1 D1 C2 D2 Hws _ _ Q1 Q2) as H. cbn [fst snd] in H.
          destruct st2; try done. by apply H.
      - destruct Fr1 as (c1 & -> & K1), Fr2 as (c2 & -> & K2). destruct d as [[L nf]|]; [|done]. by apply fwide_keep.
      - destruct Fr1 as (c1 & -> & K1), Fr2 as (c2 & -> & K2). destruct d as [[L nf]|]; [|done]. by apply fwide_keep.
      - destruct Fr1 as (c1 & -> & K1), Fr2 as (c2 & -> & K2). destruct d as [[L nf]|]; [|done]. by apply fwide_keep.
      - destruct Fr1 as (c1 & -> & K1), Fr2 as (c2 & -> & K2). destruct d as [[L nf]|]; [|done]. by apply fwide_keep.
      - destruct Fr1 as (c1 & -> & K1), Fr2 as (c2 & -> & K2). destruct d as [[L nf]|]; [|done]. by apply fwide_keep.
    Qed.

    Lemma clf_run_wide p1 p2 d (e1 : est1) (e2 : est2) os : clf_has a1 p1 -> clf_has a2 p2 ->
      (forall z, P_number_of_labels p1 <> Ret z) -> (forall z, P_number_of_labels p2 <> Ret z) ->
      at1 p1 d e1 -> at2 p2 d e2 -> ewide d e1 e2 -> Forall (clf_op_phys A vw) os -> evaluates_ok S1 A vw d e1 os ->
      both (fun r1 r2 => r2.1 = r1.1 /\ ewide (clf_dims_from d os r1.1) r1.2 r2.2 /\
          at1 p1 (clf_dims_from d os r1.1) r1.2 /\ at2 p2 (clf_dims_from d os r1.1) r2.2) (clf_run S1 A e1 os) (clf_run S2 A e2 os).
    Proof using All.
      intros Hh1 Hh2 Hnl1 Hnl2 At1 At2 He.
      induction os as [|o os IH] using rev_ind; intros Hph Hev; [by apply both_ret|].
      apply Forall_app in Hph as [Hph [Ho _]%Forall_cons]. rewrite !clf_run_snoc.
      eapply both_bind; [apply IH; [done|]|].
      { intros pre X y post rs e' L nf -> Hr Hd. eapply (Hev pre X y (post ++ [o])); [|done|done]. by rewrite <- app_assoc. }
      intros [rs1 f1] [rs2 f2] Er1 Er2 (Ers & Hfs & Bt1 & Bt2). cbn [fst snd] in *. subst rs2.
      eapply both_bind.
      { eapply (clf_step_wide p1 p2 (clf_dims_from d os rs1) f1 f2 o); try done.
        destruct o; try done. destruct (clf_dims_from d os rs1) as [[L nf]|] eqn:Ed; [|done].
        by eapply (Hev os X y [] rs1 f1). }
      intros [r1 g1] [r2 g2] _ _ (Er & Hgs & Q1 & Q2). cbn [fst snd] in *. subst r2.
      apply both_ret. cbn [fst snd]. rewrite clf_dims_from_snoc by (by eapply clf_run_len). done.
    Qed.
  End Clf.

  (** ** Regressor *)
  Section Reg.
    Context (a1 a2 : reg_args) (Ha1 : reg_valid a1) (Ha2 : reg_valid a2) (Haa : reg_wide a1 a2).
    Context (HN : N = ra_states a1) (Hw1 : w1 = width_of (ra_counting a1) (ra_states a1)) (Hw2 : w2 = width_of (ra_counting a2) (ra_states a2)).
    Notation fitted1 := (reg_fitted g_ok S1 A True True I1 a1).
    Notation fitted2 := (reg_fitted g_ok S2 A True True I2 a2).
    Notation at1 := (reg_at g_ok S1 A True True I1 a1).
    Notation at2 := (reg_at g_ok S2 A True True I2 a2).
    Lemma rwide_N : N = ra_states a2. Proof using HN Haa. rewrite (rwd_states _ _ Haa). done. Qed.
    Definition rfwide (nf : nat) (e1 : est1) (e2 : est2) : Prop :=
      rswide A vw a1 a2 nf (e_ta e1) (e_ta e2) /\ e_igen e2 = e_igen e1 /\ ct_sim (ca_ct (e_cache e1)) (ca_ct (e_cache e2)).
    Definition rewide (d : option nat) (e1 : est1) (e2 : est2) : Prop :=
      match d with None => True | Some nf => rfwide nf e1 e2 end.

    Lemma reg_init_wide (e1 : est1) (e2 : est2) nf : reg_has a1 (e_params e1) -> reg_has a2 (e_params e2) ->
      P_number_of_features (e_params e1) = Ret (Z.of_nat nf) -> P_number_of_features (e_params e2) = Ret (Z.of_nat nf) ->
      rweights_alike a1 a2 (ta_weights (e_ta e1)) (ta_weights (e_ta e2)) ->
      both (rfwide nf) (reg_initialize S1 A e1) (reg_initialize S2 A e2).
    Proof using HR WL Ha1 Ha2 Haa Hw1 Hw2.
      intros Hh1 Hh2 Hpf1 Hpf2 Hws. unfold reg_initialize, initialize_state.
      pose proof (P_reg_n a1 Ha1 _ Hh1) as Eo1. pose proof (P_reg_n a2 Ha2 _ Hh2) as Eo2.
      destruct Hh1 as [h_cl h_st h_s h_thr h_w h_mw h_b h_nj h_v h_ct h_tl h_l h_c h_bm (z & Ez & h_seed)].
      destruct Hh2 as [k_cl k_st k_s k_thr k_w k_mw k_b k_nj k_v k_ct k_tl k_l k_c k_bm (z' & Ez' & k_seed)].
      assert (z' = z) as -> by (pose proof (rwd_seed _ _ Haa); congruence).
      destruct (reg_n_facts a1 Ha1) as (Ecl & Eq & Hn1).
      rewrite h_v, h_seed, h_st, k_v, k_seed, k_st, h_cl, k_cl, Eo1, Eo2, (wide_n a1 a2 Haa), (rwd_clauses _ _ Haa). cbn [obind].
      rewrite Hpf1, Hpf2, h_ct, k_ct, h_w, k_w. cbn [obind].
      replace (Z.to_nat (ra_clauses a1)) with (2 * reg_n a1)%nat by lia. rewrite Nat2Z.id.
      fold (width_of (ra_counting a1) (ra_states a1)). fold (width_of (ra_counting a2) (ra_states a2)). rewrite <- Hw1, <- Hw2.
      eapply both_bind; [apply (wl_init _ _ _ _ _ _ _ _ WL (reg_n a1) nf); [apply (g_init_ok R g_ok f_ok HR)|lia]|].
      intros [[m1 q1] g1] [[m2 q2] g2] _ _ [Hc Eg]. cbn [fst snd] in *. subst g2.
      eapply (both_bind (fun c1 c2 => ct_sim (ca_ct c1) (ca_ct c2))).
      { unfold reg_cache_reset. rewrite Eo1, Eo2, h_s, k_s, (rwd_s _ _ Haa), Hpf1, Hpf2. cbn [obind]. apply both_same. intros ct _. apply both_ret. cbn. unfold ct_sim, same_rate. done. }
      intros c1 c2 _ _ Hct. apply both_ret. split; [|done]. split; [exact Hc|]. cbn [e_ta ta_weights].
      intros Hsw. pose proof Hsw as [-> _]. rewrite (Hws Hsw). done.
    Qed.

    Lemma reg_online_wide (e1 : est1) (e2 : est2) nf X y epochs : fitted1 nf e1 -> fitted2 nf e2 -> rfwide nf e1 e2 ->
      Forall (v_ok vw nf) X -> length y = length X -> Forall (fun v => 0 <= v <= ra_threshold a1) y ->
      both (fun r1 r2 => rfwide nf r1.2 r2.2) (reg_fit_online S1 A e1 X y epochs) (reg_fit_online S2 A e2 X y epochs).
    Proof using HR HS1 HS2 Lw1 Lw2 WL Ha1 Ha2 Haa HN.
      intros (_ & Hd1 & Hc1) (_ & Hd2 & Hc2) (Hsw & Eg & Hct) HX Hly Hy. unfold reg_fit_online.
      pose proof Hd1 as [Hh1 Hpf1]. pose proof Hd2 as [Hh2 Hpf2].
      pose proof (P_reg_n a1 Ha1 _ Hh1) as Eo1. pose proof (P_reg_n a2 Ha2 _ Hh2) as Eo2.
      destruct Hh1 as [h_cl h_st h_s h_thr h_w h_mw h_b h_nj h_v h_ct h_tl h_l h_c h_bm _].
      destruct Hh2 as [k_cl k_st k_s k_thr k_w k_mw k_b k_nj k_v k_ct k_tl k_l k_c k_bm _].
      rewrite Eo1, h_thr, h_mw, h_st, h_s, h_b, h_tl, h_nj, h_v, h_l, h_c, h_bm, Eo2, k_thr, k_mw, k_st, k_s, k_b, k_tl, k_nj, k_v, k_l, k_c, k_bm. cbn [obind].
      rewrite <- rwide_N, <- HN, (rwd_loss _ _ Haa), (rwd_C1 _ _ Haa), (rwd_box _ _ Haa). apply both_same. intros loss _. cbn [obind]. eapply both_bind.
      { apply (reg_epochs_wide g_ok f_ok HR S1 HS1 S2 HS2 A vw w1 w2 N I1 I2 E1n E1p E2 Lw1 Lw2 WL a1 a2 Haa nf Ha1 Ha2); try done.
        - apply Ha1. - apply Ha2. }
      intros [[g s] c] [[g' s'] c'] _ _ (X1 & X2 & X3 & _). cbn [fst snd] in *. subst g'.
      apply both_ret. split; [done|]. done.
    Qed.

    Lemma reg_fit_wide (e1 : est1) (e2 : est2) X y epochs : Forall (v_phys vw) X ->
      reg_has a1 (e_params e1) -> reg_has a2 (e_params e2) ->
      weights_pre (ra_weighted a1) (ra_max_weight a1) (ta_weights (e_ta e1)) -> weights_pre (ra_weighted a2) (ra_max_weight a2) (ta_weights (e_ta e2)) ->
      rweights_alike a1 a2 (ta_weights (e_ta e1)) (ta_weights (e_ta e2)) ->
      both (fun r1 r2 => r1.1 = S_OK -> rfwide (features_of X) r1.2 r2.2) (reg_fit S1 A e1 X y epochs) (reg_fit S2 A e2 X y epochs).
    Proof using HR HS1 HS2 Lw1 Lw2 WL Ha1 Ha2 Haa HN Hw1 Hw2.
      intros HX Hh1 Hh2 Hws1 Hws2 Hws. unfold reg_fit.
      destruct (check_X_y_spec g_ok A vw True True w1 N I1 E1n E1p E2 Lw1 X y HX) as [(nf & Hd & E & Ef)|[Hno E]]; rewrite E; cbn [obind].
      2:{ rewrite !decide_True by done. by apply both_ret. }
      rewrite !(decide_False (P := S_OK <> S_OK)) by (intros H; by apply H).
      rewrite (rh_threshold _ _ Hh1), (rh_threshold _ _ Hh2), (rwd_threshold _ _ Haa). cbn [obind].
      destruct (check_response_spec a1 y) as [[H0 Ecl]|[H0 Ecl]]; rewrite Ecl.
      2:{ rewrite !decide_True by done. by apply both_ret. }
      rewrite !(decide_False (P := S_OK <> S_OK)) by (intros H; by apply H).
      rewrite Ef. cbn [obind]. apply both_same. intros nfz [-> _]%ci32_inv.
      rewrite (features_of_ok g_ok A vw True True w1 N I1 E1n E1p E2 Lw1 _ _ _ Hd).
      fold (reg_fit_params nf (e_params e1)). fold (reg_fit_params nf (e_params e2)).
      pose proof (reg_init_spec g_ok f_ok HR S1 A vw True True w1 N I1 E1n E1p E2 Lw1 a1 Ha1 Hw1
        (with_params S1 A (reg_fit_params nf (e_params e1)) e1) nf (reg_fit_params_has _ _ _ Hh1)) as W1.
      pose proof (reg_init_spec g_ok f_ok HR S2 A vw True True w2 N I2 E1n E1p E2 Lw2 a2 Ha2 Hw2
        (with_params S2 A (reg_fit_params nf (e_params e2)) e2) nf (reg_fit_params_has _ _ _ Hh2)) as W2.
      specialize (W1 ltac:(cbn [with_params e_params]; apply P_features_insert) Hws1 (reg_side_true g_ok A vw w1 a1 nf)).
      specialize (W2 ltac:(cbn [with_params e_params]; apply P_features_insert) Hws2 (reg_side_true g_ok A vw w2 a2 nf)).
      eapply both_bind.
      { apply (reg_init_wide (with_params S1 A (reg_fit_params nf (e_params e1)) e1) (with_params S2 A (reg_fit_params nf (e_params e2)) e2) nf);
          cbn [with_params e_params e_ta]; try done; try (by apply reg_fit_params_has); apply P_features_insert. }
      intros i1 i2 Ei1 Ei2 Hi. rewrite Ei1 in W1. rewrite Ei2 in W2. cbn [wp] in W1, W2.
      eapply both_mono; [apply (reg_online_wide i1 i2 nf); try done; try apply Hd; try apply W1; try apply W2|by intros].
    Qed.

    Lemma reg_checked_wide (e1 : est1) (e2 : est2) nf X y epochs : Forall (v_phys vw) X ->
      fitted1 nf e1 -> fitted2 nf e2 -> rfwide nf e1 e2 ->
      both (fun r1 r2 => rfwide nf r1.2 r2.2) (reg_fit_online_checked S1 A e1 X y epochs) (reg_fit_online_checked S2 A e2 X y epochs).
    Proof using HR HS1 HS2 Lw1 Lw2 WL Ha1 Ha2 Haa HN.
      intros HX Hf1 Hf2 Hs. pose proof Hf1 as (_ & Hd1 & _). pose proof Hf2 as (_ & Hd2 & _). unfold reg_fit_online_checked.
      destruct (check_X_y_spec g_ok A vw True True w1 N I1 E1n E1p E2 Lw1 X y HX) as [(nf' & Hd & E & Ef)|[Hno E]]; rewrite E; cbn [obind].
      2:{ rewrite !decide_True by done. by apply both_ret. }
      rewrite !(decide_False (P := S_OK <> S_OK)) by (intros H; by apply H).
      rewrite (rd_features _ _ _ Hd1), (rd_features _ _ _ Hd2). cbn [obind]. unfold check_X. rewrite Ef. cbn [obind].
      destruct (Z.eqb_spec (Z.of_nat nf') (Z.of_nat nf)) as [Hnf|Hnf].
      2:{ rewrite !decide_True by done. by apply both_ret. }
      rewrite !(decide_False (P := S_OK <> S_OK)) by (intros H; by apply H). assert (nf' = nf) as -> by lia.
      rewrite (rh_threshold _ _ (rd_has _ _ _ Hd1)), (rh_threshold _ _ (rd_has _ _ _ Hd2)), (rwd_threshold _ _ Haa). cbn [obind].
      destruct (check_response_spec a1 y) as [[H0 Ecl]|[H0 Ecl]]; rewrite Ecl.
      2:{ rewrite !decide_True by done. by apply both_ret. }
      rewrite !(decide_False (P := S_OK <> S_OK)) by (intros H; by apply H).
      apply (reg_online_wide e1 e2 nf); try done; try apply Hd.
    Qed.

    Lemma rfwide_keep (e1 : est1) (e2 : est2) nf c1 c2 : rfwide nf e1 e2 -> keep S1 (e_cache e1) c1 -> keep S2 (e_cache e2) c2 ->
      rfwide nf (with_cache S1 A c1 e1) (with_cache S2 A c2 e2).
    Proof using. intros (X1 & X2 & X4) (K1 & K2 & K3 & K4) (K1' & K2' & K3' & K4'). unfold rfwide. cbn [with_cache e_cache e_ta e_igen e_fgen]. rewrite K2, K2'. done. Qed.
    Lemma rewide_weights p1 p2 d e1 e2 : at1 p1 d e1 -> at2 p2 d e2 -> rewide d e1 e2 -> rweights_alike a1 a2 (ta_weights (e_ta e1)) (ta_weights (e_ta e2)).
    Proof using. destruct d as [nf|]; cbn; [intros _ _ ([_ H] & _); exact H|]. intros -> -> _ _. done. Qed.

    Lemma ranswer_wide p1 p2 d (e1 : est1) (e2 : est2) o r1 r2 : at1 p1 d e1 -> at2 p2 d e2 -> rewide d e1 e2 ->
      reg_answer A vw a1 d (e_ta e1) o r1 -> reg_answer A vw a2 d (e_ta e2) o r2 -> r2 = r1.
    Proof using WL Ha1 Ha2 Haa.
      clear Lw1 Lw2 HN Hw1 Hw2.
      intros At1 At2 He. destruct d as [nf|].
      - cbn [reg_at rewide] in *. destruct At1 as [Hf1 _], At2 as [Hf2 _].
        assert (forall x, reg_response vw a2 nf (e_ta e2) x = reg_response vw a1 nf (e_ta e1) x) as EV.
        { intros x. destruct Hf1 as (_ & _ & [_ B2 _ _ _ _]), Hf2 as (_ & _ & [_ D2 _ _ _ _]), He as (Hs & _). cbn [fst snd] in *. rewrite (wide_n a1 a2 Haa) in D2.
          by destruct (response_wide g_ok A vw w1 w2 N I1 I2 WL a1 a2 Haa nf Ha1 Ha2 _ _ x Hs B2 D2). }
        destruct o as [X y epochs|X y epochs|x|X]; cbn [reg_answer]; unfold reg_fit_ok, reg_more_ok; rewrite ?(rwd_threshold _ _ Haa); try (intros [[? ->]|[? ->]] [[? ->]|[? ->]]; done).
        + intros [[? ->]|[? ->]] [[? ->]|[? ->]]; try done. by rewrite EV.
        + intros [[? ->]|[? ->]] [[? ->]|[? ->]]; try done. do 2 f_equal. apply map_ext. done.
      - destruct o as [X y epochs|X y epochs|x|X]; cbn [reg_answer]; unfold reg_fit_ok, reg_more_ok; rewrite ?(rwd_threshold _ _ Haa); try (intros [[? ->]|[? ->]] [[? ->]|[? ->]]; done); intros; by subst.
    Qed.

    Lemma reg_step_wide p1 p2 d (e1 : est1) (e2 : est2) o : reg_has a1 p1 -> reg_has a2 p2 ->
      at1 p1 d e1 -> at2 p2 d e2 -> rewide d e1 e2 -> reg_op_phys A vw o ->
      both (fun r1 r2 => r2.1 = r1.1 /\ rewide (reg_dims_after d o r1.1) r1.2 r2.2 /\ at1 p1 (reg_dims_after d o r1.1) r1.2 /\ at2 p2 (reg_dims_after d o r1.1) r2.2)
        (reg_step S1 A e1 o) (reg_step S2 A e2 o).
    Proof using All.
      intros Hh1 Hh2 At1 At2 He Ho [r1 f1] [r2 f2] Q1 Q2. cbn [fst snd].
      pose proof (reg_step_spec g_ok f_ok HR S1 HS1 A vw True True w1 N I1 E1n E1p E2 Lw1 a1 Ha1 HN Hw1 p1 _ e1 o Hh1 At1 Ho (reg_op_side_true _ _ _ _ _ _ _)) as W1.
      pose proof (reg_step_spec g_ok f_ok HR S2 HS2 A vw True True w2 N I2 E1n E1p E2 Lw2 a2 Ha2 rwide_N Hw2 p2 _ e2 o Hh2 At2 Ho (reg_op_side_true _ _ _ _ _ _ _)) as W2.
      rewrite Q1 in W1. rewrite Q2 in W2. cbn [wp] in W1, W2. destruct W1 as (B1 & An1 & Fr1), W2 as (B2 & An2 & Fr2).
      assert (r2 = r1) as -> by (eapply ranswer_wide; [exact At1|exact At2|done|done|done]).
      split; [done|]. split; [|done].
      destruct (reg_at_has _ S1 A _ _ _ a1 p1 d e1 Hh1 At1) as (C1 & C2 & _).
      destruct (reg_at_has _ S2 A _ _ _ a2 p2 d e2 Hh2 At2) as (D1 & D2 & _).
      pose proof (rewide_weights p1 p2 d e1 e2 At1 At2 He) as Hws.
      destruct o as [X y epochs|X y epochs|x|X]; cbn [reg_frame reg_dims_after] in *.
      - unfold reg_step in Q1, Q2. apply obind_ret_inv in Q1 as ([st1 g1] & Q1 & [= <- <-]). apply obind_ret_inv in Q2 as ([st2 g2] & Q2 & [= <- <-]).
        pose proof (reg_fit_wide e1 e2 X y epochs Ho C1 D1 C2 D2 Hws _ _ Q1 Q2) as H. cbn [fst snd] in H.
        destruct (decide (st2 = S_OK)) as [->|Hst]; [exact (H eq_refl)|].
        destruct Fr1 as [Fr1|Fr1]; [by injection Fr1|]. destruct Fr2 as [Fr2|Fr2]; [by injection Fr2|]. rewrite Fr1, Fr2. destruct st2; done.
      - unfold reg_step in Q1, Q2. apply obind_ret_inv in Q1 as ([st1 g1] & Q1 & [= <- <-]). apply obind_ret_inv in Q2 as ([st2 g2] & Q2 & [= <- <-]).
        unfold reg_partial_fit in Q1, Q2. destruct d as [nf|].
        + pose proof At1 as [Hf1 _]. pose proof At2 as [Hf2 _].
          rewrite (reg_is_fitted g_ok S1 A vw True True _ _ I1 E1n E1p E2 Lw1 a1 nf Ha1 e1 Hf1) in Q1.
          rewrite (reg_is_fitted g_ok S2 A vw True True _ _ I2 E1n E1p E2 Lw2 a2 nf Ha2 e2 Hf2) in Q2.
          pose proof (reg_checked_wide e1 e2 nf X y epochs Ho Hf1 Hf2 He _ _ Q1 Q2) as H. cbn [fst snd] in H. destruct st2; exact H.
        + assert (is_fitted A (e_ta e1) = false) as Z1 by (cbn in At1; subst e1; apply is_fitted_construct).
          assert (is_fitted A (e_ta e2) = false) as Z2 by (cbn in At2; subst e2; apply is_fitted_construct).
          rewrite Z1 in Q1. rewrite Z2 in Q2.
          pose proof (reg_fit_wide e1 e2 X y epochs Ho C1 D1 C2 D2 Hws _ _ Q1 Q2) as H. cbn [fst snd] in H.
          destruct st2; try done. by apply H.
      - destruct Fr1 as (c1 & -> & K1), Fr2 as (c2 & -> & K2). destruct d as [nf|]; [|done]. by apply rfwide_keep.
      - destruct Fr1 as (c1 & -> & K1), Fr2 as (c2 & -> & K2). destruct d as [nf|]; [|done]. by apply rfwide_keep.
    Qed.

    Lemma reg_run_wide p1 p2 d (e1 : est1) (e2 : est2) os : reg_has a1 p1 -> reg_has a2 p2 ->
      at1 p1 d e1 -> at2 p2 d e2 -> rewide d e1 e2 -> Forall (reg_op_phys A vw) os ->
      both (fun r1 r2 => r2.1 = r1.1 /\ rewide (reg_dims_from d os r1.1) r1.2 r2.2 /\
          at1 p1 (reg_dims_from d os r1.1) r1.2 /\ at2 p2 (reg_dims_from d os r1.1) r2.2) (reg_run S1 A e1 os) (reg_run S2 A e2 os).
    Proof using All.
      intros Hh1 Hh2 At1 At2 He.
      induction os as [|o os IH] using rev_ind; intros Hph; [by apply both_ret|].
      apply Forall_app in Hph as [Hph [Ho _]%Forall_cons]. rewrite !reg_run_snoc.
      eapply both_bind; [by apply IH|].
      intros [rs1 f1] [rs2 f2] Er1 Er2 (Ers & Hfs & Bt1 & Bt2). cbn [fst snd] in *. subst rs2.
      eapply both_bind; [by eapply (reg_step_wide p1 p2 (reg_dims_from d os rs1) f1 f2 o)|].
      intros [r1 g1] [r2 g2] _ _ (Er & Hgs & Q1 & Q2). cbn [fst snd] in *. subst r2.
      apply both_ret. cbn [fst snd]. rewrite reg_dims_from_snoc by (by eapply reg_run_len). done.
    Qed.
  End Reg.
End WideRun.
