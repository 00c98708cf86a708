(** * The kernels agree (C62). *)
From Verif Require Export KernelFacts.
From Verif Require Import LawsBitwise StateFacts InvFacts EstPredict Reach Toy ToyFacts.
From stdpp Require Import list.
Local Open Scope Z_scope.

(** ** Vocabulary *)
(** the tosses [ct] (one char per feature), packed 64 to a word *)
Definition packs (nf : nat) (W : list N) (ct : list Z) : Prop :=
  (blocks_for 64 nf <= length W)%nat /\ forall c, (c < nf)%nat -> word_bit W c = toss ct c.
(** automata and polarity bits of one estimator: two matrices of one shape; the automata fit in their type *)
Definition stored (nf j : nat) (s : nmatrix * bmatrix) : Prop :=
  bgood s /\ nm_cols s.1 = nf /\ (2 * j + 1 < nm_rows s.1)%nat.
(** the polarity bit of an automaton tells whether its literal is included *)
Definition in_step (s : nmatrix * bmatrix) : Prop :=
  forall r c, (r < nm_rows s.1)%nat -> (c < nm_cols s.1)%nat -> bm_bit 64 s.2 r c = (0 <=? nm_cell s.1 r c).
Definition fits (Ns : Z) (s : nmatrix * bmatrix) : Prop := Ns <= 2 ^ (nm_w s.1 - 1).

Lemma same_kernel (f1 f2 : outcome (nmatrix * bmatrix)) F1 F2 s :
  bgood s -> (exists s1, f1 = Ret s1 /\ bupd F1 s s1) -> (exists s2, f2 = Ret s2 /\ bupd F2 s s2) ->
  (forall r c v, (r < nm_rows s.1)%nat -> (c < nm_cols s.1)%nat -> in_w (nm_w s.1) v.1 -> v = jv s r c -> F1 r c v = F2 r c v) ->
  exists s', f1 = Ret s' /\ f2 = Ret s' /\ bupd F2 s s'.
Proof.
  intros Hs (s1 & E1 & U1) (s2 & E2 & U2) HF.
  assert (bupd F2 s s1) as U1' by (eapply bupd_ext; eauto).
  pose proof (bupd_inj F2 s s1 s2 U1' U2) as <-. by exists s1.
Qed.
Lemma stored_upd nf j F s s' : stored nf j s -> bupd F s s' -> stored nf j s'.
Proof. intros (H1 & H2 & H3) (Hg & [(Ew & Er & Ec) _] & _). split_and!; [done|congruence|lia]. Qed.

Lemma silent_words nf Ns j ct1 ct2 W1 W2 s :
  stored nf j s -> 1 <= Ns -> fits Ns s -> zo_list nf ct1 -> zo_list nf ct2 -> packs nf W1 ct1 -> packs nf W2 ct2 ->
  exists s', bw_block1_words Ns j W1 W2 s = Ret s' /\ bw_block1 nf Ns j ct1 ct2 s = Ret s' /\ stored nf j s'.
Proof.
  intros Hst HN Hf H1 H2 [L1 P1] [L2 P2]. pose proof Hst as (Hs & Hc & Hj). unfold fits in Hf.
  destruct (same_kernel _ _ _ _ s Hs (bw_block1_words_spec nf Ns j W1 W2 s Hs Hc Hj L1 L2 ltac:(lia))
    (bw_block1_spec nf Ns j ct1 ct2 s Hs Hc Hj H1 H2 Hf)) as (s' & E1 & E2 & U).
  { intros r c v Hr Hcc _ _. unfold on_clause. rewrite P1, P2 by lia. done. }
  exists s'. split_and!; [done|done|]. by eapply stored_upd.
Qed.
Lemma fired_words nf boost Ns j X ct1 ct2 W1 W2 s :
  stored nf j s -> 2 <= Ns -> fits Ns s -> bits_ok nf X -> zo_list nf ct1 -> zo_list nf ct2 -> packs nf W1 ct1 -> packs nf W2 ct2 ->
  exists s', bw_block2_words boost Ns j X W1 W2 s = Ret s' /\ bw_block2 boost Ns j X ct1 ct2 s = Ret s' /\ stored nf j s'.
Proof.
  intros Hst HN Hf HX H1 H2 [L1 P1] [L2 P2]. pose proof Hst as (Hs & Hc & Hj). unfold fits in Hf.
  destruct (same_kernel _ _ _ _ s Hs (bw_block2_words_spec nf boost Ns j X W1 W2 s Hs Hc Hj HX L1 L2 ltac:(lia))
    (bw_block2_spec boost Ns j nf X ct1 ct2 s Hs Hc Hj H1 H2 HX Hf)) as (s' & E1 & E2 & U).
  { intros r c v Hr Hcc _ _. unfold on_clause. rewrite P1, P2 by lia. unfold b2w, b2_pos, b2_neg.
    assert (incf Ns v = incf_any Ns v) as Ei.
    { unfold incf, incf_any, up. destruct v as [st q]. cbn [fst snd]. destruct (Z.ltb_spec st (Ns - 1)); [done|].
      by rewrite (proj2 (Z.eqb_neq st 0)) by lia. }
    rewrite Ei. destruct (bv_bit 64 X c); cbn [negb]; done. }
  exists s'. split_and!; [done|done|]. by eapply stored_upd.
Qed.
Lemma type2_words nf j X s :
  stored nf j s -> in_step s -> bits_ok nf X ->
  exists s', bw_block3_ nf j X s = Ret s' /\ bw_block3 j X s = Ret s' /\ stored nf j s'.
Proof.
  intros Hst Hsy HX. pose proof Hst as (Hs & Hc & Hj). pose proof Hs as (Hn & _). pose proof Hn as (_ & Hw & _).
  destruct (same_kernel _ _ _ _ s Hs (bw_block3__spec nf j X s Hs Hc Hj HX) (bw_block3_spec j nf X s Hs Hj Hc HX)) as (s' & E1 & E2 & U).
  { intros r c v Hr Hcc Hin Ev.
    assert (v.2 = (0 <=? v.1)) as Es. { subst v. unfold jv. cbn [fst snd]. by apply Hsy. }
    assert (forall lit, b3s lit v = b3f (nm_w s.1) lit v) as Q.
    { intros lit. unfold b3s, b3f. destruct v as [st q]. cbn [fst snd] in *. subst q.
      destruct lit; cbn [orb negb andb b2z].
      - rewrite Z.add_0_r, wrap_in_w by done. by rewrite andb_false_r, xorb_false_r.
      - destruct (Z.leb_spec 0 st); cbn [negb b2z].
        + rewrite Z.add_0_r, wrap_in_w by done. by rewrite andb_false_r, xorb_false_r.
        + rewrite wrap_in_w by (auto; unfold in_w in *; lia). by destruct (st + 1 =? 0). }
    unfold on_clause. by rewrite !Q. }
  exists s'. split_and!; [done|done|]. by eapply stored_upd.
Qed.

(** ** The classic kernels move the same automata *)
Lemma same_automata f F G s s' m' :
  nm_good s.1 -> (f = Ret m' /\ nupd F s.1 m') -> bupd G s s' ->
  (forall r c v, (r < nm_rows s.1)%nat -> (c < nm_cols s.1)%nat -> v = jv s r c -> F r c v.1 = (G r c v).1) -> s'.1 = m'.
Proof.
  intros Hn (_ & (Hg & (Ew & Er & Ec) & Hc)) (Hg' & [(Ew' & Er' & Ec') _] & Hc' & _) HF.
  apply nm_ext; [apply Hg|apply Hg'|repeat split; congruence|].
  intros r c Hr Hcc. rewrite Er in Hr. rewrite Ec in Hcc.
  rewrite (Hc r c) by done. pose proof (Hc' r c Hr Hcc) as Q. apply (f_equal fst) in Q.
  rewrite <- (HF r c (jv s r c)) in Q by done. exact Q.
Qed.
Lemma classic_silent nf Ns j ct1 ct2 s :
  stored nf j s -> 1 <= Ns -> fits Ns s -> zo_list nf ct1 -> zo_list nf ct2 ->
  exists s', bw_block1 nf Ns j ct1 ct2 s = Ret s' /\ block1 nf Ns j ct1 ct2 s.1 = Ret s'.1.
Proof.
  intros (Hs & Hc & Hj) HN Hf H1 H2. unfold fits in Hf.
  destruct (bw_block1_spec nf Ns j ct1 ct2 s Hs Hc Hj H1 H2 Hf) as (s' & E & U).
  destruct (block1_spec nf Ns j ct1 ct2 s.1 (proj1 Hs) Hc Hj H1 H2 ltac:(lia)) as (m' & E' & U').
  exists s'. split; [done|]. rewrite E'. f_equal. symmetry. eapply (same_automata _ _ _ s s' m' (proj1 Hs) (conj E' U') U).
  intros r c v _ _ _. unfold on_clause, b1f, type1_silent, decf. by destruct (Nat.eqb r (2 * j)), (Nat.eqb r (2 * j + 1)), (toss ct1 c), (toss ct2 c).
Qed.
Lemma classic_fired nf boost Ns j X D ct1 ct2 s :
  stored nf j s -> 1 <= Ns -> fits Ns s -> zo_list nf ct1 -> zo_list nf ct2 -> bits_ok nf X -> zo_list nf D ->
  (forall c, (c < nf)%nat -> dense_bit D c = bv_bit 64 X c) ->
  exists s', bw_block2 boost Ns j X ct1 ct2 s = Ret s' /\ block2 boost nf Ns j D ct1 ct2 s.1 = Ret s'.1.
Proof.
  intros (Hs & Hc & Hj) HN Hf H1 H2 HX HD HE. unfold fits in Hf.
  destruct (bw_block2_spec boost Ns j nf X ct1 ct2 s Hs Hc Hj H1 H2 HX Hf) as (s' & E & U).
  destruct (block2_spec boost nf Ns j D ct1 ct2 s.1 (proj1 Hs) Hc Hj H1 H2 HD ltac:(lia)) as (m' & E' & U').
  exists s'. split; [done|]. rewrite E'. f_equal. symmetry. eapply (same_automata _ _ _ s s' m' (proj1 Hs) (conj E' U') U).
  intros r c v _ Hcc _. unfold on_clause, b2_pos, b2_neg, type1_fired, decf, incf_any, incf, up. rewrite HE by lia.
  destruct (Nat.eqb r (2 * j)), (Nat.eqb r (2 * j + 1)), (bv_bit 64 X c), boost, (toss ct1 c), (toss ct2 c); cbn [negb orb fst]; try done; by destruct (v.1 <? Ns - 1).
Qed.
Lemma classic_type2 nf j X D s :
  stored nf j s -> in_step s -> bits_ok nf X -> zo_list nf D -> (forall c, (c < nf)%nat -> dense_bit D c = bv_bit 64 X c) ->
  exists s', bw_block3 j X s = Ret s' /\ block3 nf j D s.1 = Ret s'.1.
Proof.
  intros Hst Hsy HX HD HE. pose proof Hst as (Hs & Hc & Hj).
  destruct (type2_words nf j X s Hst Hsy HX) as (s' & E3 & E & _).
  destruct (bw_block3__spec nf j X s Hs Hc Hj HX) as (s1 & E1 & U). assert (s1 = s') as -> by congruence.
  destruct (block3_spec nf j D s.1 (proj1 Hs) Hc Hj HD) as (m' & E' & U').
  exists s'. split; [done|]. rewrite E'. f_equal. symmetry. eapply (same_automata _ _ _ s s' m' (proj1 Hs) (conj E' U') U).
  intros r c v _ Hcc _. unfold on_clause, b3s, type2. rewrite HE by lia.
  destruct (Nat.eqb r (2 * j)), (Nat.eqb r (2 * j + 1)), (bv_bit 64 X c); cbn [negb orb andb]; try done; rewrite Z.ltb_antisym; by destruct (0 <=? v.1).
Qed.

(** ** Every trained bitwise estimator stores such a state *)
Section Reached.
  Context {R : rnd} (g_ok : eG R -> Prop) (f_ok : eF R -> Prop) (HR : rnd_ok R g_ok f_ok) (S : sch) (HS : sch_ok S).
  Notation A := (Algo.bitwise R).
  Lemma full_stored w Ns n nf m p : bw_full R w Ns n nf m p -> Ns <= 2 ^ (w - 1) ->
    in_step (m, p) /\ fits Ns (m, p) /\ forall j, (2 * j < nm_rows m)%nat -> stored nf j (m, p).
  Proof.
    intros [(Hg & Hw & Hr & Hc & _ & _) Hcell] HN. split_and!.
    - intros r c H1 H2. exact (proj2 (Hcell r c ltac:(cbn in *; lia) ltac:(cbn in *; lia))).
    - unfold fits. cbn [fst]. rewrite Hw. exact HN.
    - intros j Hj. split_and!; [done|done|]. cbn [fst]. lia.
  Qed.
  Lemma clf_stored a p os rs e L nf : clf_created a p -> 2 <= ca_states a -> clf_history S A (bw_view R) p os rs e ->
    clf_dims_of os rs = Some (L, nf) -> let s := (ta_matrix (e_ta e), ta_pol (e_ta e)) in
    in_step s /\ fits (ca_states a) s /\ forall j, (2 * j < nm_rows s.1)%nat -> stored nf j s.
  Proof.
    intros Hc H2 Hh Hd. pose proof (clf_bitwise_at g_ok f_ok HR S HS a p os rs e Hc H2 Hh) as H. rewrite Hd in H.
    destruct H as [(_ & _ & [HI _ _ _ _ _ _]) _]. pose proof Hc as [[[] [] _] _ _]. unfold is_int in *.
    destruct (wide_enough (ca_counting a) (ca_states a)) as [_ H3]; [done|lia|]. eapply full_stored; [exact HI|]. apply H3.
  Qed.
  Lemma reg_stored a p os rs e nf : reg_created a p -> 2 <= ra_states a -> reg_history S A (bw_view R) p os rs e ->
    reg_dims_of os rs = Some nf -> let s := (ta_matrix (e_ta e), ta_pol (e_ta e)) in
    in_step s /\ fits (ra_states a) s /\ forall j, (2 * j < nm_rows s.1)%nat -> stored nf j s.
  Proof.
    intros Hc H2 Hh Hd. pose proof (reg_bitwise_at g_ok f_ok HR S HS a p os rs e Hc H2 Hh) as H. rewrite Hd in H.
    destruct H as [(_ & _ & [HI _ _ _ _ _]) _]. pose proof Hc as [[[] [] _] _]. unfold is_int in *.
    destruct (wide_enough (ra_counting a) (ra_states a)) as [_ H3]; [done|lia|]. eapply full_stored; [exact HI|]. apply H3.
  Qed.
End Reached.

(** ** All three versions together *)
Lemma silent_agree nf Ns j ct1 ct2 W1 W2 s :
  stored nf j s -> 1 <= Ns -> fits Ns s -> zo_list nf ct1 -> zo_list nf ct2 -> packs nf W1 ct1 -> packs nf W2 ct2 ->
  exists s', bw_block1_words Ns j W1 W2 s = Ret s' /\ bw_block1 nf Ns j ct1 ct2 s = Ret s' /\
    block1 nf Ns j ct1 ct2 s.1 = Ret s'.1 /\ stored nf j s'.
Proof.
  intros Hst HN Hf H1 H2 P1 P2. destruct (silent_words nf Ns j ct1 ct2 W1 W2 s Hst HN Hf H1 H2 P1 P2) as (s' & E1 & E2 & Hs').
  destruct (classic_silent nf Ns j ct1 ct2 s Hst HN Hf H1 H2) as (s2 & E3 & E4). assert (s2 = s') as -> by congruence. by exists s'.
Qed.
Lemma fired_agree nf boost Ns j X D ct1 ct2 W1 W2 s :
  stored nf j s -> 2 <= Ns -> fits Ns s -> bits_ok nf X -> zo_list nf D -> (forall c, (c < nf)%nat -> dense_bit D c = bv_bit 64 X c) ->
  zo_list nf ct1 -> zo_list nf ct2 -> packs nf W1 ct1 -> packs nf W2 ct2 ->
  exists s', bw_block2_words boost Ns j X W1 W2 s = Ret s' /\ bw_block2 boost Ns j X ct1 ct2 s = Ret s' /\
    block2 boost nf Ns j D ct1 ct2 s.1 = Ret s'.1 /\ stored nf j s'.
Proof.
  intros Hst HN Hf HX HD HE H1 H2 P1 P2.
  destruct (fired_words nf boost Ns j X ct1 ct2 W1 W2 s Hst HN Hf HX H1 H2 P1 P2) as (s' & E1 & E2 & Hs').
  destruct (classic_fired nf boost Ns j X D ct1 ct2 s Hst ltac:(lia) Hf H1 H2 HX HD HE) as (s2 & E3 & E4).
  assert (s2 = s') as -> by congruence. by exists s'.
Qed.
Lemma type2_agree nf j X D s :
  stored nf j s -> in_step s -> bits_ok nf X -> zo_list nf D -> (forall c, (c < nf)%nat -> dense_bit D c = bv_bit 64 X c) ->
  exists s', bw_block3_ nf j X s = Ret s' /\ bw_block3 j X s = Ret s' /\ block3 nf j D s.1 = Ret s'.1 /\ stored nf j s'.
Proof.
  intros Hst Hsy HX HD HE. destruct (type2_words nf j X s Hst Hsy HX) as (s' & E1 & E2 & Hs').
  destruct (classic_type2 nf j X D s Hst Hsy HX HD HE) as (s2 & E3 & E4). assert (s2 = s') as -> by congruence. by exists s'.
Qed.
