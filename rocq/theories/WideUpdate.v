(** * Lockstep of training steps of two estimators that store their automata in cells of different widths,
      or of which one has (trivial) weights and the other none. *)
From Verif Require Export WideLaws SimFit InvFacts.
From stdpp Require Import list.
Local Open Scope Z_scope.

(** weights cannot differ from those of an unweighted estimator *)
Definition plain (weighted : bool) (maxw : Z) : Prop := weighted = false \/ maxw = 1.
Lemma plain_weight weighted maxw n ws j : weights_ok weighted maxw n ws -> 1 <= maxw -> plain weighted maxw -> weight_of ws j = 0.
Proof.
  intros Hw Hm [->| ->].
  - cbn in Hw. by subst.
  - pose proof (weight_of_range _ _ _ _ j Hw Hm). lia.
Qed.
Lemma forallb_seq_ext f g n : (forall k, (k < n)%nat -> f k = g k) -> forallb f (seq 0 n) = forallb g (seq 0 n).
Proof.
  intros H. apply eq_bool_prop_intro. rewrite !Is_true_true, !forallb_forall.
  split; intros H' k Hk; specialize (H' k Hk); apply in_seq in Hk; rewrite H in * by lia; done.
Qed.
Lemma existsb_seq_ext f g n : (forall k, (k < n)%nat -> f k = g k) -> existsb f (seq 0 n) = existsb g (seq 0 n).
Proof.
  intros H. apply eq_bool_prop_intro. rewrite !Is_true_true, !existsb_exists.
  split; intros (k & Hk & H'); exists k; (split; [done|]); apply in_seq in Hk; rewrite H in * by lia; done.
Qed.

(** arguments which may differ in counting type, thread count, tile size and verbosity, and in weighting if the weights are
    bound to be trivial *)
Record clf_wide (a1 a2 : clf_args) : Prop := {
  wd_clauses : ca_clauses a2 = ca_clauses a1; wd_states : ca_states a2 = ca_states a1; wd_s : ca_s a2 = ca_s a1;
  wd_threshold : ca_threshold a2 = ca_threshold a1; wd_boost : ca_boost a2 = ca_boost a1; wd_seed : ca_seed a2 = ca_seed a1;
  wd_weights : (ca_weighted a2 = ca_weighted a1 /\ ca_max_weight a2 = ca_max_weight a1) \/
    (plain (ca_weighted a1) (ca_max_weight a1) /\ plain (ca_weighted a2) (ca_max_weight a2)) }.
Record reg_wide (a1 a2 : reg_args) : Prop := {
  rwd_clauses : ra_clauses a2 = ra_clauses a1; rwd_states : ra_states a2 = ra_states a1; rwd_s : ra_s a2 = ra_s a1;
  rwd_threshold : ra_threshold a2 = ra_threshold a1; rwd_boost : ra_boost a2 = ra_boost a1; rwd_seed : ra_seed a2 = ra_seed a1;
  rwd_loss : ra_loss a2 = ra_loss a1; rwd_C1 : ra_C1 a2 = ra_C1 a1; rwd_box : ra_box_muller a2 = ra_box_muller a1;
  rwd_weights : (ra_weighted a2 = ra_weighted a1 /\ ra_max_weight a2 = ra_max_weight a1) \/
    (plain (ra_weighted a1) (ra_max_weight a1) /\ plain (ra_weighted a2) (ra_max_weight a2)) }.

Section Wide.
  Context {R : rnd} (g_ok : eG R -> Prop) (f_ok : eF R -> Prop) (HR : rnd_ok R g_ok f_ok).
  Context (S1 : sch) (HS1 : sch_ok S1) (S2 : sch) (HS2 : sch_ok S2).
  Context (A : algo R) (vw : aview A).
  Context (w1 w2 N : Z) (I1 I2 : nat -> nat -> nmatrix -> a_pol A -> Prop).
  Context (E1n : nat -> coin_tosser -> a_smp A -> nat -> amp A -> amp A -> Prop).
  Context (E1p : bool -> nat -> coin_tosser -> a_smp A -> nat -> amp A -> amp A -> Prop).
  Context (E2 : nat -> a_smp A -> nat -> amp A -> amp A -> Prop).
  Context (Lw1 : laws A g_ok vw True True w1 N I1 E1n E1p E2) (Lw2 : laws A g_ok vw True True w2 N I2 E1n E1p E2).
  Context (WL : wide_laws A g_ok vw w1 w2 N I1 I2).
  Notation G := (eG R).
  Notation F := (eF R).
  Notation smp := (a_smp A).
  Notation ta := (tastate (a_pol A)).
  Notation core1 := (clf_core g_ok f_ok S1 A True True I1).
  Notation core2 := (clf_core g_ok f_ok S2 A True True I2).
  Notation rcore1 := (reg_core g_ok S1 A True True I1).
  Notation rcore2 := (reg_core g_ok S2 A True True I2).
  Notation cells n nf s1 s2 := (cells_eq vw n nf (EstTrain.mp A s1) (EstTrain.mp A s2)).

  (** *** Inference *)
  Lemma fires_wide n nf s1 s2 x j : cells n nf s1 s2 -> (j < n)%nat ->
    fires vw nf s2 x j = fires vw nf s1 x j /\ fires_pruned vw nf s2 x j = fires_pruned vw nf s1 x j.
  Proof.
    intros H Hj. assert (forall k, (k < nf)%nat -> v_inc vw (ta_matrix s2) (ta_pol s2) j k = v_inc vw (ta_matrix s1) (ta_pol s1) j k /\
      v_incn vw (ta_matrix s2) (ta_pol s2) j k = v_incn vw (ta_matrix s1) (ta_pol s1) j k) as Hk.
    { intros k Hk. exact (wl_inc _ _ _ _ _ _ _ _ WL n nf _ _ j k H Hj Hk). }
    assert (fires vw nf s2 x j = fires vw nf s1 x j) as E.
    { unfold fires, clause_true. apply forallb_seq_ext. intros k Hlt. destruct (Hk k Hlt) as [-> ->]. done. }
    split; [done|]. unfold fires_pruned. rewrite E. f_equal. unfold clause_nonempty. apply existsb_seq_ext. intros k Hlt. destruct (Hk k Hlt) as [-> ->]. done.
  Qed.

  (** *** One clause; [WS]: both keep the same weights *)
  Section Train.
    Context (n nf : nat) (mw1 mw2 : Z) (WS : Prop) (HWS : WS -> mw2 = mw1).
    Definition twide (r1 r2 : ta * coin_tosser * G) : Prop :=
      cells n nf r1.1.1 r2.1.1 /\ (WS -> ta_weights r2.1.1 = ta_weights r1.1.1) /\ r2.2 = r1.2 /\ ct_sim r1.1.2 r2.1.2 /\
      I1 n nf (ta_matrix r1.1.1) (ta_pol r1.1.1) /\ I2 n nf (ta_matrix r2.1.1) (ta_pol r2.1.1) /\
      ct_ok R g_ok True True nf r1.1.2 /\ ct_ok R g_ok True True nf r2.1.2 /\ g_ok r1.2.
    Lemma give_type1_wide boost x co co' j s1 s2 ct1 ct2 g1 g2 : co' !! j = co !! j -> (j < n)%nat -> v_ok vw nf x -> twide (s1, ct1, g1) (s2, ct2, g2) ->
      both twide (give_type1 A boost N mw1 x co j s1 ct1 g1) (give_type1 A boost N mw2 x co' j s2 ct2 g2).
    Proof using Lw1 Lw2 WL HWS.
      intros Eco Hj Hx (Hc & Hw & Eg & Hct & HI1 & HI2 & K1 & K2 & Hg). cbn [fst snd] in *. subst g2.
      unfold give_type1, vget. rewrite Eco. apply both_same. intros v _. destruct (v =? 0).
      - eapply both_bind.
        { eapply both_wp; [exact (wl_t1n _ _ _ _ _ _ _ _ WL n nf (EstTrain.mp A s1) (EstTrain.mp A s2) x j ct1 ct2 g1 HI1 HI2 Hc Hx Hj Hct K1 Hg)|
            exact (l_t1n _ _ _ _ _ _ _ _ _ _ _ Lw1 n nf _ _ x j ct1 g1 HI1 Hx Hj K1 Hg)|exact (l_t1n _ _ _ _ _ _ _ _ _ _ _ Lw2 n nf _ _ x j ct2 g1 HI2 Hx Hj K2 Hg)]. }
        intros [[[m1 p1] c1] h1] [[[m2 p2] c2] h2] _ _ ((B1 & B2 & B3) & (J1 & _ & _ & _ & Q1 & D1) & (J2 & _ & _ & _ & Q2 & D2)). cbn [fst snd] in *.
        apply both_ret. unfold twide. cbn [fst snd ta_matrix ta_pol ta_weights]. done.
      - eapply both_bind.
        { eapply both_wp; [exact (wl_t1p _ _ _ _ _ _ _ _ WL boost n nf (EstTrain.mp A s1) (EstTrain.mp A s2) x j ct1 ct2 g1 HI1 HI2 Hc Hx Hj Hct K1 Hg)|
            exact (l_t1p _ _ _ _ _ _ _ _ _ _ _ Lw1 boost n nf _ _ x j ct1 g1 HI1 Hx Hj K1 Hg)|exact (l_t1p _ _ _ _ _ _ _ _ _ _ _ Lw2 boost n nf _ _ x j ct2 g1 HI2 Hx Hj K2 Hg)]. }
        intros [[[m1 p1] c1] h1] [[[m2 p2] c2] h2] _ _ ((B1 & B2 & B3) & (J1 & _ & _ & _ & Q1 & D1) & (J2 & _ & _ & _ & Q2 & D2)). cbn [fst snd] in *.
        eapply (both_bind (fun ws1 ws2 => WS -> ws2 = ws1)).
        { intros z1 z2 Z1 Z2 W. rewrite (Hw W), (HWS W) in Z2. congruence. }
        intros ws1 ws2 _ _ Hws. apply both_ret. unfold twide. cbn [fst snd ta_matrix ta_pol ta_weights]. done.
    Qed.
    Lemma give_type2_wide x j s1 s2 ct1 ct2 g1 g2 : (j < n)%nat -> v_ok vw nf x -> twide (s1, ct1, g1) (s2, ct2, g2) ->
      both twide (let* s := give_type2 A x j s1 in Ret (s, ct1, g1)) (let* s := give_type2 A x j s2 in Ret (s, ct2, g2)).
    Proof using Lw1 Lw2 WL.
      intros Hj Hx (Hc & Hw & Eg & Hct & HI1 & HI2 & K1 & K2 & Hg). cbn [fst snd] in *. subst g2.
      eapply (both_bind (fun s1' s2' => twide (s1', ct1, g1) (s2', ct2, g1))); [|intros; by apply both_ret]. unfold give_type2.
      eapply both_bind.
      { eapply both_wp; [exact (wl_t2 _ _ _ _ _ _ _ _ WL n nf (EstTrain.mp A s1) (EstTrain.mp A s2) x j HI1 HI2 Hc Hx Hj)|
          exact (l_t2 _ _ _ _ _ _ _ _ _ _ _ Lw1 n nf _ _ x j HI1 Hx Hj)|exact (l_t2 _ _ _ _ _ _ _ _ _ _ _ Lw2 n nf _ _ x j HI2 Hx Hj)]. }
      intros [m1 p1] [m2 p2] _ _ (B1 & (J1 & _) & (J2 & _)).
      eapply (both_bind (fun ws1 ws2 => WS -> ws2 = ws1)).
      { intros z1 z2 Z1 Z2 W. rewrite (Hw W) in Z2. congruence. }
      intros ws1 ws2 _ _ Hws. apply both_ret. unfold twide. cbn [fst snd ta_matrix ta_pol ta_weights]. done.
    Qed.
    Lemma train_classifier_wide ixs fb co co' x boost s1 s2 ct1 ct2 g1 g2 : (forall j, j ∈ ixs -> co' !! j = co !! j /\ (j < n)%nat) -> v_ok vw nf x ->
      twide (s1, ct1, g1) (s2, ct2, g2) ->
      both twide (train_classifier A ixs fb co N x mw1 boost s1 ct1 g1) (train_classifier A ixs fb co' N x mw2 boost s2 ct2 g2).
    Proof using Lw1 Lw2 WL HWS.
      intros Eco Hx H0. unfold train_classifier. apply (both_ofold twide); [done|].
      intros j [[t1 u1] h1] [[t2 u2] h2] Hj Ht. destruct (Eco j Hj) as [Ej Hlt].
      apply both_same. intros v _. destruct (1 <=? v); [by apply give_type1_wide|]. destruct (v <=? -1); [|by apply both_ret].
      unfold vget. rewrite Ej. apply both_same. intros cv _. destruct (cv =? 1); [by apply give_type2_wide|by apply both_ret].
    Qed.
    Lemma train_regressor_wide co co' err x loss bm boost T a s1 s2 ct1 ct2 g1 g2 : n = reg_n a ->
      (forall j, (j < n)%nat -> co' !! j = co !! j) -> v_ok vw nf x -> twide (s1, ct1, g1) (s2, ct2, g2) ->
      both twide (train_regressor A (Z.of_nat n) co N err x mw1 loss bm boost T s1 ct1 g1)
                 (train_regressor A (Z.of_nat n) co' N err x mw2 loss bm boost T s2 ct2 g2).
    Proof using HR Lw1 Lw2 WL HWS.
      intros Ena Eco Hx H0. pose proof H0 as (Hc & Hw & Eg & Hct & HI1 & HI2 & K1 & K2 & Hg). cbn [fst snd] in *. subst g2.
      unfold train_regressor. apply both_same. intros [h g0] Eh. apply (both_ofold twide).
      { unfold twide. cbn [fst snd]. do 8 (split; [done|]).
        pose proof (feedback_hits_ok g_ok f_ok HR a bm (loss (f32_div (f32_of_Z err) (f32_of_Z T))) g1 Hg) as W. rewrite <- Ena, Eh in W. apply W. }
      intros i [[t1 u1] h1] [[t2 u2] h2] _ (Hc' & Hw' & Eg' & Hct' & HI1' & HI2' & K1' & K2' & Hg'). cbn [fst snd] in *. subst h2.
      apply both_same. intros [j h2] Ej. pose proof (draw_mod_spec R g_ok f_ok HR h1 n True True Hg' (or_intror Logic.I)) as Wd.
      rewrite Nat2Z.id in Ej. rewrite Ej in Wd. cbn in Wd. destruct Wd as [Hj Hg2].
      assert (twide (t1, u1, h2) (t2, u2, h2)) as Ht by done.
      destruct (err <? 0); [apply give_type1_wide; auto|]. destruct (0 <? err); [|by apply both_ret].
      unfold vget. rewrite (Eco j Hj). apply both_same. intros cv _. destruct (negb _); [by apply give_type2_wide|by apply both_ret].
    Qed.
  End Train.

  (** *** Classifier *)
  Section Clf.
    Context (a1 a2 : clf_args) (Haa : clf_wide a1 a2) (L nf : nat) (Ha1 : clf_valid a1) (Ha2 : clf_valid a2).
    Context (Hn : Z.of_nat (L * clf_opl a1) <= int_max).
    Notation n := (L * clf_opl a1)%nat.
    Definition same_ws : Prop := ca_weighted a2 = ca_weighted a1 /\ ca_max_weight a2 = ca_max_weight a1.
    Definition weights_alike (ws1 ws2 : list Z) : Prop := same_ws -> ws2 = ws1.
    Lemma wide_opl : clf_opl a2 = clf_opl a1. Proof using Haa. unfold clf_opl. by rewrite (wd_clauses _ _ Haa). Qed.
    Lemma wide_weight ws1 ws2 j : weights_ok (ca_weighted a1) (ca_max_weight a1) n ws1 -> weights_ok (ca_weighted a2) (ca_max_weight a2) n ws2 ->
      weights_alike ws1 ws2 -> weight_of ws2 j = weight_of ws1 j.
    Proof using Haa Ha1 Ha2.
      intros W1 W2 Hw. destruct (wd_weights _ _ Haa) as [H|[P1 P2]]; [by rewrite (Hw H)|].
      rewrite (plain_weight _ _ _ _ _ W1) by (try done; apply Ha1). rewrite (plain_weight _ _ _ _ _ W2) by (try done; apply Ha2). done.
    Qed.
    (** the same model *)
    Definition swide (s1 s2 : ta) : Prop := cells n nf s1 s2 /\ weights_alike (ta_weights s1) (ta_weights s2).
    Lemma votes_wide s1 s2 x : swide s1 s2 ->
      weights_ok (ca_weighted a1) (ca_max_weight a1) n (ta_weights s1) -> weights_ok (ca_weighted a2) (ca_max_weight a2) n (ta_weights s2) ->
      clf_votes vw a2 L nf s2 x = clf_votes vw a1 L nf s1 x /\ (forall t, (t < L)%nat -> step_votes A vw a2 nf s2 x t = step_votes A vw a1 nf s1 x t).
    Proof using Haa Ha1 Ha2 WL.
      clear Hn. intros [Hc Hw] W1 W2. split.
      - unfold clf_votes. rewrite wide_opl, (wd_threshold _ _ Haa). apply map_ext_in. intros l Hl%in_seq. unfold label_vote. f_equal.
        apply signed_votes_ext; intros j Hj; [|by apply wide_weight]. apply (fires_wide n); [done|]. nia.
      - intros t Ht. unfold step_votes, label_vote. rewrite wide_opl, (wd_threshold _ _ Haa). f_equal.
        apply signed_votes_ext; intros j Hj; [|by apply wide_weight]. apply (fires_wide n); [done|]. nia.
    Qed.
    Definition pwide (st1 : G * F * ta * cache (eS S1)) (st2 : G * F * ta * cache (eS S2)) : Prop :=
      swide st1.1.2 st2.1.2 /\ st2.1.1 = st1.1.1 /\ ct_sim (ca_ct st1.2) (ca_ct st2.2) /\ core1 a1 L nf st1 /\ core2 a2 L nf st2.
    Notation upd S a x t o nj tile := (classifier_update S A x (Z.of_nat t) (Z.of_nat o) (Z.of_nat (clf_opl a)) (ca_threshold a) N
        (ca_boost a) (ca_max_weight a) nj tile).
    Lemma classifier_update_wide x (t o : nat) nj1 tile1 nj2 tile2 st1 st2 :
      pwide st1 st2 -> v_ok vw nf x -> (t < L)%nat -> (o < L)%nat -> t <> o -> tile_known tile1 -> tile_known tile2 ->
      both pwide (upd S1 a1 x t o nj1 tile1 st1) (upd S2 a2 x t o nj2 tile2 st2).
    Proof using All.
      intros (Hs & Eg & Hct & Hc1 & Hc2) Hx Ht Ho Hne Ht1 Ht2. destruct st1 as [[[g f] s1] c1], st2 as [[[g' f'] s2] c2].
      cbn [fst snd] in *. injection Eg as -> ->. pose proof Hs as [Hcl Hw].
      assert (Z.of_nat (L * clf_opl a2) <= int_max) as Hn2 by (rewrite wide_opl; done).
      pose proof Hc1 as [B1 B2 (B3 & B4 & B5) B6 _ B8 _]. pose proof Hc2 as [D1 D2 (D3 & D4 & D5) D6 _ _ _]. cbn [fst snd] in *. rewrite wide_opl in D1, D2, D3, D4.
      destruct (votes_wide s1 s2 x Hs B2 D2) as [_ Hv].
      assert (both (fun r1 r2 => swide r1.1.2 r2.1.2 /\ r2.1.1 = r1.1.1 /\ ct_sim (ca_ct r1.2) (ca_ct r2.2)) (upd S1 a1 x t o nj1 tile1 (g, f, s1, c1)) (upd S2 a2 x t o nj2 tile2 (g, f, s2, c2))) as Hsim.
      { destruct (update_eq g_ok f_ok S1 HS1 A vw w1 N I1 E1n E1p E2 Lw1 a1 L nf x t o nj1 tile1 g f s1 c1) as (o1 & l1 & ss1 & Lo1 & Ll1 & Ho1 & ->); try done.
        destruct (update_eq g_ok f_ok S2 HS2 A vw w2 N I2 E1n E1p E2 Lw2 a2 L nf x t o nj2 tile2 g f s2 c2) as (o2 & l2 & ss2 & Lo2 & Ll2 & Ho2 & ->); try done.
        rewrite wide_opl in *. rewrite (Hv t Ht), (Hv o Ho), (wd_threshold _ _ Haa), (wd_boost _ _ Haa).
        rewrite (calc_feedback_len R (ca_fb c1) (ca_fb c2)) by congruence. apply both_same. intros [fb f1] Efb.
        assert (forall j, j ∈ seq (t * clf_opl a1) (clf_opl a1) \/ j ∈ seq (o * clf_opl a1) (clf_opl a1) -> o2 !! j = o1 !! j /\ (j < n)%nat) as Hj.
        { intros j Hj. rewrite (Ho1 j Hj), (Ho2 j Hj). assert (j < n)%nat as Hlt by (rewrite !elem_of_seq in Hj; nia).
          split; [|done]. by rewrite (proj1 (fires_wide n nf s1 s2 x j Hcl Hlt)). }
        eapply both_bind; [apply (train_classifier_wide n nf (ca_max_weight a1) (ca_max_weight a2) same_ws)|].
        { by intros [_ ?]. } { intros j Hj'. apply Hj. by left. } { done. } { unfold twide. cbn [fst snd]. done. }
        intros [[t1 u1] g1] [[t2 u2] g2] _ _ Htw.
        eapply both_bind; [apply (train_classifier_wide n nf (ca_max_weight a1) (ca_max_weight a2) same_ws)|].
        { by intros [_ ?]. } { intros j Hj'. apply Hj. by right. } { done. } { exact Htw. }
        intros [[t3 u3] g3] [[t4 u4] g4] _ _ (X1 & X2 & X3 & X4 & _). cbn [fst snd] in *. subst g4.
        apply both_ret. split; [by split|]. done. }
      eapply both_mono_eq; [exact Hsim|]. intros st1 st2 R1 R2 (X1 & X2 & X3).
      pose proof (classifier_update_spec g_ok f_ok HR S1 HS1 A vw True True w1 N I1 E1n E1p E2 Lw1 a1 L nf Ha1 Hn x t o nj1 tile1 g f s1 c1 Hc1 Hx Ht Ho Hne Ht1 (or_intror Logic.I)) as W1.
      pose proof (classifier_update_spec g_ok f_ok HR S2 HS2 A vw True True w2 N I2 E1n E1p E2 Lw2 a2 L nf Ha2 Hn2 x t o nj2 tile2 g f s2 c2 Hc2 Hx Ht Ho Hne Ht2 (or_intror Logic.I)) as W2.
      rewrite R1 in W1. rewrite R2 in W2. cbn in W1, W2. unfold pwide. tauto.
    Qed.
    Notation epoch S a p X y nj tile := (clf_epoch S A p X y (Z.of_nat L) (Z.of_nat (clf_opl a)) (ca_threshold a) (ca_max_weight a) N (ca_boost a) tile nj).
    Lemma clf_epoch_wide p1 p2 X y nj1 tile1 nj2 tile2 st1 st2 :
      pwide st1 st2 -> Forall (v_ok vw nf) X -> length y = length X -> Forall (fun v => 0 <= v < Z.of_nat L) y ->
      tile_known tile1 -> tile_known tile2 ->
      both pwide (epoch S1 a1 p1 X y nj1 tile1 st1) (epoch S2 a2 p2 X y nj2 tile2 st2).
    Proof using All.
      intros (Hs & Eg & Hct & Hc1 & Hc2) HX Hly Hy Ht1 Ht2. destruct st1 as [[[g f] s1] c1], st2 as [[[g' f'] s2] c2].
      cbn [fst snd] in *. injection Eg as -> ->. unfold clf_epoch.
      pose proof Hc1 as [_ _ _ _ _ Hg _]. cbn [fst snd] in *.
      destruct (clf_opl_facts a1 Ha1) as (_ & _ & _ & Hopl).
      pose proof (generate_opposite_spec g_ok f_ok HR True True y L g Hy ltac:(nia) (or_intror Logic.I) Hg) as Hopp.
      apply both_same. intros [oy g1] Eoy. rewrite Eoy in Hopp. cbn in Hopp. destruct Hopp as [HF Hg1].
      pose proof (shuf_ok R g_ok f_ok HR g1 (length X) Hg1) as [Hperm Hg2].
      destruct (shuf R g1 (length X)) as [ix g2]. cbn [fst snd] in *.
      apply (both_ofold pwide).
      - split; [done|]. split; [done|]. split; [done|]. destruct Hc1, Hc2. split; constructor; done.
      - intros i st1 st2 Hi Hp. assert (i < length X)%nat as Hlt.
        { rewrite Hperm in Hi. apply elem_of_seq in Hi. lia. }
        pose proof (Forall2_length _ _ _ HF) as Elo.
        destruct (vget_ret_lt X i Hlt) as (x & Ex & ->). cbn [obind].
        destruct (vget_ret_lt y i) as (yi & Ey & ->); [lia|]. cbn [obind].
        destruct (vget_ret_lt oy i) as (oi & Eo & ->); [lia|]. cbn [obind].
        destruct (Forall2_lookup_lr _ _ _ _ _ _ HF Ey Eo) as [(ol & -> & Hol) Hne].
        eapply Forall_lookup_1 in Hy; [|exact Ey]. eapply Forall_lookup_1 in HX; [|exact Ex].
        rewrite <- (Z2Nat.id yi) by lia. apply classifier_update_wide; try done; lia.
    Qed.
    Lemma clf_epochs_wide p1 p2 X y epochs nj1 tile1 nj2 tile2 st1 st2 :
      pwide st1 st2 -> Forall (v_ok vw nf) X -> length y = length X -> Forall (fun v => 0 <= v < Z.of_nat L) y ->
      tile_known tile1 -> tile_known tile2 ->
      both pwide (ofor 0 epochs st1 (fun _ => epoch S1 a1 p1 X y nj1 tile1)) (ofor 0 epochs st2 (fun _ => epoch S2 a2 p2 X y nj2 tile2)).
    Proof using All. intros. unfold ofor. apply (both_ofold pwide); [done|]. intros. by apply clf_epoch_wide. Qed.
  End Clf.

  (** *** Regressor *)
  Section Reg.
    Context (a1 a2 : reg_args) (Haa : reg_wide a1 a2) (nf : nat) (Ha1 : reg_valid a1) (Ha2 : reg_valid a2).
    Notation n := (reg_n a1)%nat.
    Definition rsame_ws : Prop := ra_weighted a2 = ra_weighted a1 /\ ra_max_weight a2 = ra_max_weight a1.
    Definition rweights_alike (ws1 ws2 : list Z) : Prop := rsame_ws -> ws2 = ws1.
    Lemma wide_n : reg_n a2 = reg_n a1. Proof using Haa. unfold reg_n. by rewrite (rwd_clauses _ _ Haa). Qed.
    Lemma rwide_weight ws1 ws2 j : weights_ok (ra_weighted a1) (ra_max_weight a1) n ws1 -> weights_ok (ra_weighted a2) (ra_max_weight a2) n ws2 ->
      rweights_alike ws1 ws2 -> weight_of ws2 j = weight_of ws1 j.
    Proof using Haa Ha1 Ha2.
      intros W1 W2 Hw. destruct (rwd_weights _ _ Haa) as [H|[P1 P2]]; [by rewrite (Hw H)|].
      rewrite (plain_weight _ _ _ _ _ W1) by (try done; apply Ha1). rewrite (plain_weight _ _ _ _ _ W2) by (try done; apply Ha2). done.
    Qed.
    Definition rswide (s1 s2 : ta) : Prop := cells n nf s1 s2 /\ rweights_alike (ta_weights s1) (ta_weights s2).
    Lemma response_wide s1 s2 x : rswide s1 s2 ->
      weights_ok (ra_weighted a1) (ra_max_weight a1) n (ta_weights s1) -> weights_ok (ra_weighted a2) (ra_max_weight a2) n (ta_weights s2) ->
      reg_response vw a2 nf s2 x = reg_response vw a1 nf s1 x /\ step_response A vw a2 nf s2 x = step_response A vw a1 nf s1 x.
    Proof using Haa Ha1 Ha2 WL.
      intros [Hc Hw] W1 W2. split.
      - unfold reg_response. rewrite wide_n, (rwd_threshold _ _ Haa). f_equal.
        apply total_votes_ext; intros j Hj; [|by apply rwide_weight]. by apply (fires_wide n).
      - unfold step_response. rewrite wide_n, (rwd_threshold _ _ Haa). f_equal.
        apply total_votes_ext; intros j Hj; [|by apply rwide_weight]. by apply (fires_wide n).
    Qed.
    Definition rpwide (st1 : G * ta * cache (eS S1)) (st2 : G * ta * cache (eS S2)) : Prop :=
      rswide st1.1.2 st2.1.2 /\ st2.1.1 = st1.1.1 /\ ct_sim (ca_ct st1.2) (ca_ct st2.2) /\ rcore1 a1 nf st1 /\ rcore2 a2 nf st2.
    Notation upd S a x y loss bm nj tile := (regressor_update S A x y (ra_threshold a) (Z.of_nat (reg_n a)) N (ra_boost a) (ra_max_weight a) loss bm nj tile).
    Lemma regressor_update_wide x y loss bm nj1 tile1 nj2 tile2 st1 st2 :
      rpwide st1 st2 -> v_ok vw nf x -> 0 <= y <= ra_threshold a1 -> tile_known tile1 -> tile_known tile2 ->
      both rpwide (upd S1 a1 x y loss bm nj1 tile1 st1) (upd S2 a2 x y loss bm nj2 tile2 st2).
    Proof using All.
      intros (Hs & Eg & Hct & Hc1 & Hc2) Hx Hy Ht1 Ht2. destruct st1 as [[g s1] c1], st2 as [[g' s2] c2].
      cbn [fst snd] in *. subst g'. pose proof Hs as [Hcl Hw].
      pose proof Hc1 as [B1 B2 [B3 _] B5 _ B7]. pose proof Hc2 as [D1 D2 [D3 _] D5 _ _]. cbn [fst snd] in *. rewrite wide_n in D1, D2, D3.
      destruct (response_wide s1 s2 x Hs B2 D2) as [_ Hv].
      assert (both (fun r1 r2 => rswide r1.1.2 r2.1.2 /\ r2.1.1 = r1.1.1 /\ ct_sim (ca_ct r1.2) (ca_ct r2.2)) (upd S1 a1 x y loss bm nj1 tile1 (g, s1, c1)) (upd S2 a2 x y loss bm nj2 tile2 (g, s2, c2))) as Hsim.
      { destruct (reg_update_eq g_ok S1 HS1 A vw w1 N I1 E1n E1p E2 Lw1 a1 nf x y loss bm nj1 tile1 g s1 c1) as (o1 & ss1 & Lo1 & Ho1 & ->); try done.
        destruct (reg_update_eq g_ok S2 HS2 A vw w2 N I2 E1n E1p E2 Lw2 a2 nf x y loss bm nj2 tile2 g s2 c2) as (o2 & ss2 & Lo2 & Ho2 & ->); try done.
        rewrite wide_n in *. rewrite Hv, (rwd_threshold _ _ Haa), (rwd_boost _ _ Haa). apply both_same. intros err _.
        eapply both_bind; [apply (train_regressor_wide n nf (ra_max_weight a1) (ra_max_weight a2) rsame_ws) with (a := a1)|].
        { by intros [_ ?]. } { done. } { intros j Hj. rewrite Ho1, Ho2 by done. by rewrite (proj1 (fires_wide n nf s1 s2 x j Hcl Hj)). } { done. } { unfold twide. cbn [fst snd]. done. }
        intros [[t3 u3] g3] [[t4 u4] g4] _ _ (X1 & X2 & X3 & X4 & _). cbn [fst snd] in *. subst g4.
        apply both_ret. split; [by split|]. done. }
      eapply both_mono_eq; [exact Hsim|]. intros st1 st2 R1 R2 (X1 & X2 & X3).
      pose proof (regressor_update_spec g_ok f_ok HR S1 HS1 A vw True True w1 N I1 E1n E1p E2 Lw1 a1 nf Ha1 x y loss bm nj1 tile1 g s1 c1 Hc1 Hx Hy Ht1 (hits_good_true g_ok a1 bm loss)) as W1.
      pose proof (regressor_update_spec g_ok f_ok HR S2 HS2 A vw True True w2 N I2 E1n E1p E2 Lw2 a2 nf Ha2 x y loss bm nj2 tile2 g s2 c2 Hc2 Hx ltac:(rewrite (rwd_threshold _ _ Haa); done) Ht2 (hits_good_true g_ok a2 bm loss)) as W2.
      rewrite R1 in W1. rewrite R2 in W2. cbn in W1, W2. unfold rpwide. tauto.
    Qed.
    Notation epoch S a X y loss bm nj tile := (reg_epoch S A X y (ra_threshold a) (Z.of_nat (reg_n a)) N (ra_boost a) (ra_max_weight a) loss bm nj tile).
    Lemma reg_epoch_wide X y loss bm nj1 tile1 nj2 tile2 st1 st2 :
      rpwide st1 st2 -> Forall (v_ok vw nf) X -> length y = length X -> Forall (fun v => 0 <= v <= ra_threshold a1) y ->
      tile_known tile1 -> tile_known tile2 ->
      both rpwide (epoch S1 a1 X y loss bm nj1 tile1 st1) (epoch S2 a2 X y loss bm nj2 tile2 st2).
    Proof using All.
      intros (Hs & Eg & Hct & Hc1 & Hc2) HX Hly Hy Ht1 Ht2. destruct st1 as [[g s1] c1], st2 as [[g' s2] c2].
      cbn [fst snd] in *. subst g'. unfold reg_epoch. pose proof Hc1 as [_ _ _ _ _ Hg]. cbn [fst snd] in *.
      pose proof (shuf_ok R g_ok f_ok HR g (length X) Hg) as [Hperm Hg2].
      destruct (shuf R g (length X)) as [ix g2]. cbn [fst snd] in *.
      apply (both_ofold rpwide).
      - split; [done|]. split; [done|]. split; [done|]. destruct Hc1, Hc2. split; constructor; done.
      - intros i st1 st2 Hi Hp. assert (i < length X)%nat as Hlt.
        { rewrite Hperm in Hi. apply elem_of_seq in Hi. lia. }
        destruct (vget_ret_lt X i Hlt) as (x & Ex & ->). cbn [obind].
        destruct (vget_ret_lt y i) as (yi & Ey & ->); [lia|]. cbn [obind].
        eapply Forall_lookup_1 in Hy; [|exact Ey]. eapply Forall_lookup_1 in HX; [|exact Ex].
        apply regressor_update_wide; try done; lia.
    Qed.
    Lemma reg_epochs_wide X y loss bm epochs nj1 tile1 nj2 tile2 st1 st2 :
      rpwide st1 st2 -> Forall (v_ok vw nf) X -> length y = length X -> Forall (fun v => 0 <= v <= ra_threshold a1) y ->
      tile_known tile1 -> tile_known tile2 ->
      both rpwide (ofor 0 epochs st1 (fun _ => epoch S1 a1 X y loss bm nj1 tile1)) (ofor 0 epochs st2 (fun _ => epoch S2 a2 X y loss bm nj2 tile2)).
    Proof using All. intros. unfold ofor. apply (both_ofold rpwide); [done|]. intros. by apply reg_epoch_wide. Qed.
  End Reg.
End Wide.
