(** * Lockstep: two estimators with different schedulers, thread counts, tile sizes and scratch contents
      make the same training steps. *)
From Verif Require Export Reach.
From stdpp Require Import list.
Local Open Scope Z_scope.

(** ** One update, with everything that does not depend on scratch contents made explicit *)
Section UpdateEq.
  Context {R : rnd} (g_ok : eG R -> Prop) (f_ok : eF R -> Prop) (HR : rnd_ok R g_ok f_ok).
  Context (S : sch) (HS : sch_ok S).
  Context (A : algo R) (vw : aview A).
  Context (w N : Z) (I : nat -> nat -> nmatrix -> a_pol A -> Prop).
  Context (E1n : nat -> coin_tosser -> a_smp A -> nat -> amp A -> amp A -> Prop).
  Context (E1p : bool -> nat -> coin_tosser -> a_smp A -> nat -> amp A -> amp A -> Prop).
  Context (E2 : nat -> a_smp A -> nat -> amp A -> amp A -> Prop).
  Context (Lw : laws A g_ok vw True True w N I E1n E1p E2).
  Notation clf_core := (clf_core g_ok f_ok S A True True I).
  Notation reg_core := (reg_core g_ok S A True True I).

  Lemma update_eq a L nf x (t o : nat) n_jobs tile g f s c : clf_valid a -> Z.of_nat (L * clf_opl a) <= int_max ->
    clf_core a L nf (g, f, s, c) -> v_ok vw nf x -> (t < L)%nat -> (o < L)%nat -> t <> o -> tile_known tile ->
    exists out ls ss, length out = length (ca_out c) /\ length ls = length (ca_sum c) /\
      (forall j, j ∈ seq (t * clf_opl a) (clf_opl a) \/ j ∈ seq (o * clf_opl a) (clf_opl a) -> out !! j = Some (b2z (fires vw nf s x j))) /\
      classifier_update S A x (Z.of_nat t) (Z.of_nat o) (Z.of_nat (clf_opl a)) (ca_threshold a) N (ca_boost a) (ca_max_weight a) n_jobs tile (g, f, s, c) =
      (let* '(fb, f') := calc_feedback R (ca_fb c) (Z.of_nat t) (Z.of_nat o) (step_votes A vw a nf s x t) (step_votes A vw a nf s x o)
          (Z.of_nat (clf_opl a)) (ca_threshold a) f in
       let* '(s1, ct1, g1) := train_classifier A (seq (t * clf_opl a) (clf_opl a)) fb out N x (ca_max_weight a) (ca_boost a) s (ca_ct c) g in
       let* '(s2, ct2, g2) := train_classifier A (seq (o * clf_opl a) (clf_opl a)) fb out N x (ca_max_weight a) (ca_boost a) s1 ct1 g1 in
       Ret (g2, f', s2, Cache fb out ls ct2 ss)).
  Proof.
    intros Ha Hn Hcore Hx Ht Ho Hne Htile. pose proof Hcore as [HI Hw (Lf & Lo & Ls) Hct Hrate Hg Hf]. cbn [fst snd] in *.
    pose proof Ha as [Hty Hac _]. destruct Hty, Hac. destruct (clf_opl_facts a Ha) as (_ & _ & Hev & Hopl).
    assert ((t * (clf_opl a) + (clf_opl a) <= L * (clf_opl a))%nat /\ (o * (clf_opl a) + (clf_opl a) <= L * (clf_opl a))%nat) as [Bt Bo] by nia.
    unfold classifier_update.
    rewrite (clause_range_spec t (clf_opl a)) by lia. cbn [obind].
    destruct (calc_output_spec g_ok S HS A vw True True w N I E1n E1p E2 Lw (L * (clf_opl a)) nf x c s (t * (clf_opl a)) (t * (clf_opl a) + (clf_opl a)) n_jobs tile)
      as (c1 & Ec1 & F1 & S1 & K1 & L1 & O1); [done|done|done|lia|lia|]. rewrite Ec1. cbn [obind].
    rewrite (clause_range_spec o (clf_opl a)) by lia. cbn [obind].
    destruct (calc_output_spec g_ok S HS A vw True True w N I E1n E1p E2 Lw (L * (clf_opl a)) nf x c1 s (o * (clf_opl a)) (o * (clf_opl a) + (clf_opl a)) n_jobs tile)
      as (c2 & Ec2 & F2 & S2 & K2 & L2 & O2); [done|done|done|lia|lia|]. rewrite Ec2. cbn [obind].
    assert (forall j, j ∈ seq (t * (clf_opl a)) (clf_opl a) \/ j ∈ seq (o * (clf_opl a)) (clf_opl a) -> ca_out c2 !! j = Some (b2z (fires vw nf s x j))) as Hout.
    { intros j Hj. rewrite !elem_of_seq in Hj. rewrite O2. destruct (decide (o * (clf_opl a) <= j < o * (clf_opl a) + (clf_opl a))%nat); [done|].
      rewrite O1. rewrite decide_True by lia. done. }
    rewrite (sum_label_spec (ca_weighted a) (ca_max_weight a) L (clf_opl a) t (ca_threshold a) (ca_out c2) (ta_weights s) (ca_sum c2)
      (fun j => fires vw nf s x (t * (clf_opl a) + j))); [|done|split; [done|apply ct_maxw]|done|done|done|lia|congruence|].
    2:{ intros j Hj. apply Hout. left. apply elem_of_seq. lia. }
    cbn [obind].
    rewrite (sum_label_spec (ca_weighted a) (ca_max_weight a) L (clf_opl a) o (ca_threshold a) (ca_out c2) (ta_weights s) _
      (fun j => fires vw nf s x (o * (clf_opl a) + j))); [|done|split; [done|apply ct_maxw]|done|done|done|lia|rewrite insert_length; congruence|].
    2:{ intros j Hj. apply Hout. right. apply elem_of_seq. lia. }
    cbn [obind]. fold (label_vote (clf_opl a) (ca_threshold a) (fires vw nf s x) (ta_weights s) t).
    fold (label_vote (clf_opl a) (ca_threshold a) (fires vw nf s x) (ta_weights s) o).
    fold (step_votes A vw a nf s x t). fold (step_votes A vw a nf s x o).
    set (ls := <[o := step_votes A vw a nf s x o]> (<[t := step_votes A vw a nf s x t]> (ca_sum c2))).
    assert (length ls = L) as Els by (unfold ls; rewrite !insert_length; congruence).
    assert (vgetZ ls (Z.of_nat t) = Ret (step_votes A vw a nf s x t)) as ->.
    { unfold vgetZ. rewrite (proj2 (Z.ltb_ge (Z.of_nat t) 0)) by lia. rewrite Nat2Z.id. apply vget_ret. unfold ls.
      rewrite list_lookup_insert_ne by done. apply list_lookup_insert. rewrite S2, S1. lia. }
    assert (vgetZ ls (Z.of_nat o) = Ret (step_votes A vw a nf s x o)) as ->.
    { unfold vgetZ. rewrite (proj2 (Z.ltb_ge (Z.of_nat o) 0)) by lia. rewrite Nat2Z.id. apply vget_ret. unfold ls.
      apply list_lookup_insert. rewrite insert_length, S2, S1. lia. }
    cbn [obind]. exists (ca_out c2), ls, (ca_sched c2).
    split; [congruence|]. split; [congruence|]. split; [exact Hout|]. rewrite F2, F1, K2, K1.
    destruct (calc_feedback R (ca_fb c) _ _ _ _ _ _ _) as [[fb f']| | |]; try done. cbn [obind].
    rewrite (int_range_spec (t * (clf_opl a)) (clf_opl a)). cbn [obind].
    destruct (train_classifier _ _ _ _ _ _ _ _ _ _ _) as [[[s1 ct1] g1]| | |]; try done. cbn [obind].
    rewrite (int_range_spec (o * (clf_opl a)) (clf_opl a)). cbn [obind]. done.
  Qed.

  Lemma reg_update_eq a nf x target loss bm n_jobs tile g s c : reg_valid a ->
    reg_core a nf (g, s, c) -> v_ok vw nf x -> tile_known tile ->
    exists out ss, length out = length (ca_out c) /\
      (forall j, (j < reg_n a)%nat -> out !! j = Some (b2z (fires vw nf s x j))) /\
      regressor_update S A x target (ra_threshold a) (Z.of_nat (reg_n a)) N (ra_boost a) (ra_max_weight a) loss bm n_jobs tile (g, s, c) =
      (let* err := ci32 (step_response A vw a nf s x - target) in
       let* '(s', ct', g') := train_regressor A (Z.of_nat (reg_n a)) out N err x (ra_max_weight a) loss bm (ra_boost a) (ra_threshold a) s (ca_ct c) g in
       Ret (g', s', Cache (ca_fb c) out (ca_sum c) ct' ss)).
  Proof.
    intros Ha Hcore Hx Htile. pose proof Hcore as [HI Hw [Hlen _] Hct Hrate Hg]. cbn [fst snd] in *.
    pose proof Ha as [Hty Hac _]. destruct Hty, Hac. pose proof (reg_n_bound a Ha) as Hb.
    unfold regressor_update.
    destruct (calc_output_spec g_ok S HS A vw True True w N I E1n E1p E2 Lw (reg_n a) nf x c s 0 (reg_n a) n_jobs tile)
      as (c1 & Ec1 & F1 & S1 & K1 & L1 & O1); [done|done|done|lia|lia|]. change (Z.of_nat 0) with 0 in Ec1. rewrite Ec1. cbn [obind].
    assert (forall j, (j < (reg_n a))%nat -> ca_out c1 !! j = Some (b2z (fires vw nf s x j))) as Hout.
    { intros j Hj. rewrite O1. rewrite decide_True by lia. done. }
    rewrite (sum_reg_spec (ra_weighted a) (ra_max_weight a) (reg_n a) (ra_threshold a) (ca_out c1) (ta_weights s) (fires vw nf s x));
      [|done|split; [done|apply rt_maxw]|done|lia|congruence|done]. cbn [obind].
    fold (step_response A vw a nf s x).
    exists (ca_out c1), (ca_sched c1). split; [done|]. split; [done|]. by rewrite F1, S1, K1.
  Qed.
End UpdateEq.

(** ** Two runs *)
Lemma calc_feedback_len (R : rnd) fb fb' t o tv ov opl T f : length fb' = length fb ->
  calc_feedback R fb' t o tv ov opl T f = calc_feedback R fb t o tv ov opl T f.
Proof. intros E. unfold calc_feedback. by rewrite E. Qed.
Lemma ct_sim_trans a b c : ct_sim a b -> ct_sim b c -> ct_sim a c.
Proof. unfold ct_sim, same_rate. intuition congruence. Qed.
Lemma ct_sim_sym a b : ct_sim a b -> ct_sim b a.
Proof. unfold ct_sim, same_rate. intuition congruence. Qed.

Section Sim.
  Context {R : rnd} (g_ok : eG R -> Prop) (f_ok : eF R -> Prop) (HR : rnd_ok R g_ok f_ok).
  Context (S1 : sch) (HS1 : sch_ok S1) (S2 : sch) (HS2 : sch_ok S2).
  Context (A : algo R) (vw : aview A).
  Context (w N : Z) (I : nat -> nat -> nmatrix -> a_pol A -> Prop).
  Context (E1n : nat -> coin_tosser -> a_smp A -> nat -> amp A -> amp A -> Prop).
  Context (E1p : bool -> nat -> coin_tosser -> a_smp A -> nat -> amp A -> amp A -> Prop).
  Context (E2 : nat -> a_smp A -> nat -> amp A -> amp A -> Prop).
  Context (Lw : laws A g_ok vw True True w N I E1n E1p E2).
  Notation G := (eG R).
  Notation F := (eF R).
  Notation smp := (a_smp A).
  Notation ta := (tastate (a_pol A)).
  Notation core1 := (clf_core g_ok f_ok S1 A True True I).
  Notation core2 := (clf_core g_ok f_ok S2 A True True I).

  Definition tsim (r r' : ta * coin_tosser * G) : Prop := r'.1.1 = r.1.1 /\ r'.2 = r.2 /\ ct_sim r.1.2 r'.1.2.
  Lemma give_type1_sim boost maxw x co co' j s ct ct' g : co' !! j = co !! j -> ct_sim ct ct' ->
    orel tsim (give_type1 A boost N maxw x co j s ct g) (give_type1 A boost N maxw x co' j s ct' g).
  Proof.
    intros Eco Hct. unfold give_type1, vget. rewrite Eco. apply orel_same. intros v _. destruct (v =? 0).
    - eapply orel_bind; [apply (l_s1n _ _ _ _ _ _ _ _ _ _ _ Lw); exact Hct|].
      intros [[[m p] c1] g1] [[[m' p'] c1'] g1'] _ _ (E1 & E3 & E4). cbn in *. simplify_eq. done.
    - eapply orel_bind; [apply (l_s1p _ _ _ _ _ _ _ _ _ _ _ Lw); exact Hct|].
      intros [[[m p] c1] g1] [[[m' p'] c1'] g1'] _ _ (E1 & E3 & E4). cbn in *. simplify_eq.
      apply orel_same. intros ws _. done.
  Qed.
  Lemma train_classifier_sim ixs fb co co' x maxw boost s ct ct' g : (forall j, j ∈ ixs -> co' !! j = co !! j) -> ct_sim ct ct' ->
    orel tsim (train_classifier A ixs fb co N x maxw boost s ct g) (train_classifier A ixs fb co' N x maxw boost s ct' g).
  Proof.
    intros Eco Hct. unfold train_classifier. apply (orel_ofold tsim); [done|].
    intros j [[s1 ct1] g1] [[s2 ct2] g2] Hj (E1 & E3 & E4). cbn [fst snd] in *. subst s2 g2.
    apply orel_same. intros v _. destruct (1 <=? v); [by apply give_type1_sim; auto|]. destruct (v <=? -1); [|done].
    unfold vget. rewrite (Eco j Hj). apply orel_same. intros cv _. destruct (cv =? 1); [|done].
    apply orel_same. intros s2 _. done.
  Qed.
  Lemma train_regressor_sim (n : nat) co co' err x maxw loss bm boost T s ct ct' g : (1 <= n)%nat ->
    (forall j, (j < n)%nat -> co' !! j = co !! j) -> ct_sim ct ct' ->
    orel tsim (train_regressor A (Z.of_nat n) co N err x maxw loss bm boost T s ct g)
              (train_regressor A (Z.of_nat n) co' N err x maxw loss bm boost T s ct' g).
  Proof.
    intros Hn Eco Hct. unfold train_regressor. apply orel_same. intros [h g0] _. apply (orel_ofold tsim); [done|].
    intros i [[s1 ct1] g1] [[s2 ct2] g2] _ (E1 & E3 & E4). cbn [fst snd] in *. subst s2 g2.
    apply orel_same. intros [j g2] Ej. assert (j < n)%nat as Hj.
    { unfold draw_mod in Ej. rewrite Nat2Z.id in Ej. destruct (g_next R g1) as [r g3]. destruct (Nat.eqb_spec n 0); [lia|].
      injection Ej as <- <-. pose proof (Z.mod_pos_bound r (Z.of_nat n) ltac:(lia)). lia. }
    destruct (err <? 0); [by apply give_type1_sim; auto|]. destruct (0 <? err); [|done].
    unfold vget. rewrite (Eco j Hj). apply orel_same. intros cv _. destruct (negb _); [|done].
    apply orel_same. intros s2 _. done.
  Qed.

  (** scratch spaces of the same sizes and tossers of the same rate *)
  Definition cache_sim (c1 : cache (eS S1)) (c2 : cache (eS S2)) : Prop :=
    length (ca_fb c2) = length (ca_fb c1) /\ length (ca_out c2) = length (ca_out c1) /\ length (ca_sum c2) = length (ca_sum c1) /\
    ct_sim (ca_ct c1) (ca_ct c2).
  Definition st_sim (st1 : G * F * ta * cache (eS S1)) (st2 : G * F * ta * cache (eS S2)) : Prop :=
    st2.1 = st1.1 /\ cache_sim st1.2 st2.2.
  Definition rst_sim (st1 : G * ta * cache (eS S1)) (st2 : G * ta * cache (eS S2)) : Prop :=
    st2.1 = st1.1 /\ cache_sim st1.2 st2.2.

  Section Clf.
    Context (a : clf_args) (L nf : nat) (Ha : clf_valid a) (HN : N = ca_states a).
    Context (Hn : Z.of_nat (L * clf_opl a) <= int_max).
    Definition psim st1 st2 : Prop := st_sim st1 st2 /\ core1 a L nf st1 /\ core2 a L nf st2.
    Notation upd S x t o nj tile := (classifier_update S A x (Z.of_nat t) (Z.of_nat o) (Z.of_nat (clf_opl a)) (ca_threshold a) N
        (ca_boost a) (ca_max_weight a) nj tile).
    Lemma classifier_update_sim x (t o : nat) nj1 tile1 nj2 tile2 st1 st2 :
      psim st1 st2 -> v_ok vw nf x -> (t < L)%nat -> (o < L)%nat -> t <> o -> tile_known tile1 -> tile_known tile2 ->
      orel psim (upd S1 x t o nj1 tile1 st1) (upd S2 x t o nj2 tile2 st2).
    Proof.
      intros (Hs & Hc1 & Hc2) Hx Ht Ho Hne Ht1 Ht2. destruct st1 as [[[g f] s] c1], st2 as [[[g' f'] s'] c2].
      destruct Hs as [Eq (Lf & Lo & Ls & Hct)]. cbn [fst snd] in *. injection Eq as -> -> ->.
      assert (orel st_sim (upd S1 x t o nj1 tile1 (g, f, s, c1)) (upd S2 x t o nj2 tile2 (g, f, s, c2))) as Hsim.
      { destruct (update_eq g_ok f_ok S1 HS1 A vw w N I E1n E1p E2 Lw a L nf x t o nj1 tile1 g f s c1) as (o1 & l1 & ss1 & Lo1 & Ll1 & Ho1 & ->); try done.
        destruct (update_eq g_ok f_ok S2 HS2 A vw w N I E1n E1p E2 Lw a L nf x t o nj2 tile2 g f s c2) as (o2 & l2 & ss2 & Lo2 & Ll2 & Ho2 & ->); try done.
        rewrite (calc_feedback_len R (ca_fb c1) (ca_fb c2)) by done. apply orel_same. intros [fb f1] Efb.
        eapply orel_bind; [apply train_classifier_sim; [|exact Hct]|].
        { intros j Hj. rewrite Ho1, Ho2 by (by left). done. }
        intros [[s1 ct1] g1] [[s2 ct2] g2] _ _ (E1 & E3 & E4). cbn [fst snd] in *. subst s2 g2.
        eapply orel_bind; [apply train_classifier_sim; [|exact E4]|].
        { intros j Hj. rewrite Ho1, Ho2 by (by right). done. }
        intros [[s3 ct3] g3] [[s4 ct4] g4] _ _ (E5 & E6 & E7). cbn [fst snd] in *. subst s4 g4.
        split; [done|]. unfold cache_sim. cbn [snd ca_fb ca_out ca_sum ca_ct]. repeat split; try congruence; apply E7. }
      eapply orel_mono_eq; [exact Hsim|]. intros st1 st2 R1 R2 Hss.
      pose proof (classifier_update_spec g_ok f_ok HR S1 HS1 A vw True True w N I E1n E1p E2 Lw a L nf Ha Hn x t o nj1 tile1 g f s c1 Hc1 Hx Ht Ho Hne Ht1 (or_intror Logic.I)) as W1.
      pose proof (classifier_update_spec g_ok f_ok HR S2 HS2 A vw True True w N I E1n E1p E2 Lw a L nf Ha Hn x t o nj2 tile2 g f s c2 Hc2 Hx Ht Ho Hne Ht2 (or_intror Logic.I)) as W2.
      rewrite R1 in W1. rewrite R2 in W2. cbn in W1, W2. unfold psim. tauto.
    Qed.
    Notation epoch S p X y nj tile := (clf_epoch S A p X y (Z.of_nat L) (Z.of_nat (clf_opl a)) (ca_threshold a) (ca_max_weight a) N (ca_boost a) tile nj).
    Lemma clf_epoch_sim p1 p2 X y nj1 tile1 nj2 tile2 st1 st2 :
      psim st1 st2 -> Forall (v_ok vw nf) X -> length y = length X -> Forall (fun v => 0 <= v < Z.of_nat L) y ->
      tile_known tile1 -> tile_known tile2 ->
      orel psim (epoch S1 p1 X y nj1 tile1 st1) (epoch S2 p2 X y nj2 tile2 st2).
    Proof.
      intros (Hs & Hc1 & Hc2) HX Hly Hy Ht1 Ht2. destruct st1 as [[[g f] s] c1], st2 as [[[g' f'] s'] c2].
      destruct Hs as [Eq Hcs]. cbn [fst snd] in *. injection Eq as -> -> ->. unfold clf_epoch.
      pose proof Hc1 as [HI Hw Hl Hct Hrate Hg Hf]. cbn [fst snd] in *.
      destruct (clf_opl_facts a Ha) as (_ & _ & _ & Hopl).
      pose proof (generate_opposite_spec g_ok f_ok HR True True y L g Hy ltac:(nia) (or_intror Logic.I) Hg) as Hopp.
      apply orel_same. intros [oy g1] Eoy. rewrite Eoy in Hopp. cbn in Hopp. destruct Hopp as [HF Hg1].
      pose proof (shuf_ok R g_ok f_ok HR g1 (length X) Hg1) as [Hperm Hg2].
      destruct (shuf R g1 (length X)) as [ix g2]. cbn [fst snd] in *.
      apply (orel_ofold psim).
      - split; [done|]. destruct Hc1, Hc2. split; constructor; done.
      - intros i st1 st2 Hi Hp. assert (i < length X)%nat as Hlt.
        { rewrite Hperm in Hi. apply elem_of_seq in Hi. lia. }
        pose proof (Forall2_length _ _ _ HF) as Elo.
        destruct (vget_ret_lt X i Hlt) as (x & Ex & ->). cbn [obind].
        destruct (vget_ret_lt y i) as (yi & Ey & ->); [lia|]. cbn [obind].
        destruct (vget_ret_lt oy i) as (oi & Eo & ->); [lia|]. cbn [obind].
        destruct (Forall2_lookup_lr _ _ _ _ _ _ HF Ey Eo) as [(ol & -> & Hol) Hne].
        eapply Forall_lookup_1 in Hy; [|exact Ey]. eapply Forall_lookup_1 in HX; [|exact Ex].
        rewrite <- (Z2Nat.id yi) by lia. apply classifier_update_sim; try done; lia.
    Qed.
    Lemma clf_epochs_sim p1 p2 X y epochs nj1 tile1 nj2 tile2 st1 st2 :
      psim st1 st2 -> Forall (v_ok vw nf) X -> length y = length X -> Forall (fun v => 0 <= v < Z.of_nat L) y ->
      tile_known tile1 -> tile_known tile2 ->
      orel psim (ofor 0 epochs st1 (fun _ => epoch S1 p1 X y nj1 tile1)) (ofor 0 epochs st2 (fun _ => epoch S2 p2 X y nj2 tile2)).
    Proof. intros. unfold ofor. apply (orel_ofold psim); [done|]. intros. by apply clf_epoch_sim. Qed.
  End Clf.

  Section Reg.
    Notation rcore1 := (reg_core g_ok S1 A True True I).
    Notation rcore2 := (reg_core g_ok S2 A True True I).
    Context (a : reg_args) (nf : nat) (Ha : reg_valid a) (HN : N = ra_states a).
    Definition rpsim st1 st2 : Prop := rst_sim st1 st2 /\ rcore1 a nf st1 /\ rcore2 a nf st2.
    Notation upd S x y loss bm nj tile := (regressor_update S A x y (ra_threshold a) (Z.of_nat (reg_n a)) N (ra_boost a) (ra_max_weight a) loss bm nj tile).
    Lemma regressor_update_sim x y loss bm nj1 tile1 nj2 tile2 st1 st2 :
      rpsim st1 st2 -> v_ok vw nf x -> 0 <= y <= ra_threshold a -> tile_known tile1 -> tile_known tile2 ->
      orel rpsim (upd S1 x y loss bm nj1 tile1 st1) (upd S2 x y loss bm nj2 tile2 st2).
    Proof.
      intros (Hs & Hc1 & Hc2) Hx Hy Ht1 Ht2. destruct st1 as [[g s] c1], st2 as [[g' s'] c2].
      destruct Hs as [Eq (Lf & Lo & Ls & Hct)]. cbn [fst snd] in *. injection Eq as -> ->. destruct (reg_n_facts a Ha) as (_ & _ & Hn1).
      assert (orel rst_sim (upd S1 x y loss bm nj1 tile1 (g, s, c1)) (upd S2 x y loss bm nj2 tile2 (g, s, c2))) as Hsim.
      { destruct (reg_update_eq g_ok S1 HS1 A vw w N I E1n E1p E2 Lw a nf x y loss bm nj1 tile1 g s c1) as (o1 & ss1 & Lo1 & Ho1 & ->); try done.
        destruct (reg_update_eq g_ok S2 HS2 A vw w N I E1n E1p E2 Lw a nf x y loss bm nj2 tile2 g s c2) as (o2 & ss2 & Lo2 & Ho2 & ->); try done.
        apply orel_same. intros err _.
        eapply orel_bind; [apply train_regressor_sim; [done| |exact Hct]|].
        { intros j Hj. rewrite Ho1, Ho2 by done. done. }
        intros [[s1 ct1] g1] [[s2 ct2] g2] _ _ (E1 & E3 & E4). cbn [fst snd] in *. subst s2 g2.
        split; [done|]. unfold cache_sim. cbn [snd ca_fb ca_out ca_sum ca_ct]. repeat split; try congruence; apply E4. }
      eapply orel_mono_eq; [exact Hsim|]. intros st1 st2 R1 R2 Hss.
      pose proof (regressor_update_spec g_ok f_ok HR S1 HS1 A vw True True w N I E1n E1p E2 Lw a nf Ha x y loss bm nj1 tile1 g s c1 Hc1 Hx Hy Ht1 (hits_good_true g_ok a bm loss)) as W1.
      pose proof (regressor_update_spec g_ok f_ok HR S2 HS2 A vw True True w N I E1n E1p E2 Lw a nf Ha x y loss bm nj2 tile2 g s c2 Hc2 Hx Hy Ht2 (hits_good_true g_ok a bm loss)) as W2.
      rewrite R1 in W1. rewrite R2 in W2. cbn in W1, W2. unfold rpsim. tauto.
    Qed.
    Notation epoch S X y loss bm nj tile := (reg_epoch S A X y (ra_threshold a) (Z.of_nat (reg_n a)) N (ra_boost a) (ra_max_weight a) loss bm nj tile).
    Lemma reg_epoch_sim X y loss bm nj1 tile1 nj2 tile2 st1 st2 :
      rpsim st1 st2 -> Forall (v_ok vw nf) X -> length y = length X -> Forall (fun v => 0 <= v <= ra_threshold a) y ->
      tile_known tile1 -> tile_known tile2 ->
      orel rpsim (epoch S1 X y loss bm nj1 tile1 st1) (epoch S2 X y loss bm nj2 tile2 st2).
    Proof.
      intros (Hs & Hc1 & Hc2) HX Hly Hy Ht1 Ht2. destruct st1 as [[g s] c1], st2 as [[g' s'] c2].
      destruct Hs as [Eq Hcs]. cbn [fst snd] in *. injection Eq as -> ->. unfold reg_epoch.
      pose proof Hc1 as [HI Hw Hl Hct Hrate Hg]. cbn [fst snd] in *.
      pose proof (shuf_ok R g_ok f_ok HR g (length X) Hg) as [Hperm Hg2].
      destruct (shuf R g (length X)) as [ix g2]. cbn [fst snd] in *.
      apply (orel_ofold rpsim).
      - split; [done|]. destruct Hc1, Hc2. split; constructor; done.
      - intros i st1 st2 Hi Hp. assert (i < length X)%nat as Hlt.
        { rewrite Hperm in Hi. apply elem_of_seq in Hi. lia. }
        destruct (vget_ret_lt X i Hlt) as (x & Ex & ->). cbn [obind].
        destruct (vget_ret_lt y i) as (yi & Ey & ->); [lia|]. cbn [obind].
        eapply Forall_lookup_1 in Hy; [|exact Ey]. eapply Forall_lookup_1 in HX; [|exact Ex].
        apply regressor_update_sim; try done; lia.
    Qed.
    Lemma reg_epochs_sim X y loss bm epochs nj1 tile1 nj2 tile2 st1 st2 :
      rpsim st1 st2 -> Forall (v_ok vw nf) X -> length y = length X -> Forall (fun v => 0 <= v <= ra_threshold a) y ->
      tile_known tile1 -> tile_known tile2 ->
      orel rpsim (ofor 0 epochs st1 (fun _ => epoch S1 X y loss bm nj1 tile1)) (ofor 0 epochs st2 (fun _ => epoch S2 X y loss bm nj2 tile2)).
    Proof. intros. unfold ofor. apply (orel_ofold rpsim); [done|]. intros. by apply reg_epoch_sim. Qed.
  End Reg.
End Sim.
