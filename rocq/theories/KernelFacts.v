(** * Exact effect of the feature-wise and word-wise feedback kernels, and their equality. *)
From Verif Require Export Kernels BwFeedbackFacts.
From Verif Require Import StateFacts.
From stdpp Require Import list.
Local Open Scope Z_scope.

(** ** A state is determined by its automata and its polarity bits *)
Lemma bm_ext p p' : bm_wf 64 p -> bm_wf 64 p' -> bm_same_shape p p' ->
  (forall r c, (r < bm_rows p)%nat -> (c < bm_row_blocks p * 64)%nat -> bm_bit 64 p' r c = bm_bit 64 p r c) -> p' = p.
Proof.
  intros (_ & Hl & Ho) (_ & Hl' & Ho') (Er & Ec & Eb) Hb.
  assert (bm_data p' = bm_data p) as Ed.
  { apply (list_eq_same_length _ _ (bm_rows p * bm_row_blocks p)); [done|by rewrite Hl', Er, Eb|].
    intros i x y Hi Hx Hy.
    rewrite list.Forall_forall in Ho, Ho'.
    pose proof (Ho y ltac:(eapply elem_of_list_lookup_2; exact Hy)) as Oy.
    pose proof (Ho' x ltac:(eapply elem_of_list_lookup_2; exact Hx)) as Ox.
    apply N.bits_inj. intros b. destruct (N.lt_ge_cases b 64) as [Hlt|Hge]; [|by rewrite Ox, Oy].
    assert (0 < bm_row_blocks p)%nat as Hbl by (destruct (bm_row_blocks p); lia).
    set (r := (i / bm_row_blocks p)%nat). set (q := (i mod bm_row_blocks p)%nat).
    assert (i = r * bm_row_blocks p + q)%nat as Ei by (unfold r, q; rewrite (Nat.div_mod i (bm_row_blocks p)) at 1; lia).
    assert (q < bm_row_blocks p)%nat as Hq by (apply Nat.mod_upper_bound; lia).
    assert (r < bm_rows p)%nat as Hr by (apply Nat.div_lt_upper_bound; lia).
    specialize (Hb r (q * 64 + N.to_nat b)%nat Hr ltac:(nia)).
    unfold bm_bit in Hb. rewrite Eb in Hb.
    rewrite Nat.div_add_l, (Nat.div_small (N.to_nat b)), Nat.add_0_r in Hb by lia.
    rewrite (Nat.add_comm (q * 64)), Nat.mod_add, Nat.mod_small, N2Nat.id in Hb by lia.
    rewrite <- Ei, Hx, Hy in Hb. exact Hb. }
  destruct p, p'. cbn in *. congruence.
Qed.
Lemma bupd_inj F s s1 s2 : bupd F s s1 -> bupd F s s2 -> s1 = s2.
Proof.
  intros ((Hn1 & Hp1 & Er1 & Ec1) & (Hs1 & Hb1) & Hc1 & Ht1) ((Hn2 & Hp2 & Er2 & Ec2) & (Hs2 & Hb2) & Hc2 & Ht2).
  destruct s1 as [m1 p1], s2 as [m2 p2]. cbn [fst snd] in *.
  destruct Hs1 as (A1 & A2 & A3), Hs2 as (B1 & B2 & B3), Hb1 as (C1 & C2 & C3), Hb2 as (D1 & D2 & D3).
  f_equal.
  - apply nm_ext; [apply Hn2|apply Hn1|repeat split; congruence|].
    intros r c Hr Hc. rewrite B2 in Hr. rewrite B3 in Hc.
    pose proof (Hc1 r c Hr Hc) as Q1. pose proof (Hc2 r c Hr Hc) as Q2. unfold jv in Q1, Q2. cbn [fst snd] in Q1, Q2.
    rewrite <- Q2 in Q1. exact (f_equal fst Q1).
  - apply bm_ext; [done|done|repeat split; congruence|].
    intros r c Hr Hc. rewrite D3 in Hc. assert (r < nm_rows s.1)%nat as Hr' by lia.
    destruct (Nat.lt_ge_cases c (nm_cols s.1)) as [Hlt|Hge].
    + pose proof (Hc1 r c Hr' Hlt) as Q1. pose proof (Hc2 r c Hr' Hlt) as Q2. unfold jv in Q1, Q2. cbn [fst snd] in Q1, Q2.
      rewrite <- Q2 in Q1. exact (f_equal snd Q1).
    + rewrite Ht1, Ht2 by lia. done.
Qed.

(** ** Words of flips *)
Definition fw (i : nat) (f : nat -> bool) (w : N) : Prop := forall b, N.testbit w b = N.ltb b (N.of_nat i) && f (N.to_nat b).
Lemma fw_0 f : fw 0 f 0%N.
Proof. intros b. rewrite N.bits_0. by rewrite (proj2 (N.ltb_ge b (N.of_nat 0))) by lia. Qed.
Lemma fw_step i f w : fw i f w -> fw (i + 1) f (N.lor w (N.shiftl (b2n (f i)) (N.of_nat i))).
Proof.
  intros Hw b. rewrite N.lor_spec, Hw.
  destruct (N.lt_trichotomy b (N.of_nat i)) as [Hlt|[->|Hgt]].
  - rewrite (proj2 (N.ltb_lt b (N.of_nat i))) by done. rewrite (proj2 (N.ltb_lt b (N.of_nat (i + 1)))) by lia.
    rewrite N.shiftl_spec_low by done. by rewrite orb_false_r.
  - rewrite (proj2 (N.ltb_ge (N.of_nat i) (N.of_nat i))) by lia. rewrite (proj2 (N.ltb_lt _ (N.of_nat (i + 1)))) by lia.
    rewrite N.shiftl_spec_high' by lia. rewrite N.sub_diag, Nat2N.id. by destruct (f i).
  - rewrite (proj2 (N.ltb_ge b (N.of_nat i))) by lia. rewrite (proj2 (N.ltb_ge b (N.of_nat (i + 1)))) by lia.
    rewrite N.shiftl_spec_high' by lia. destruct (f i); [|by rewrite N.bits_0].
    destruct (b - N.of_nat i)%N eqn:Ed; [lia|done].
Qed.
Lemma fw_ok i f w : (i <= 64)%nat -> fw i f w -> block_ok 64 w.
Proof. intros Hi H b Hb. rewrite H. by rewrite (proj2 (N.ltb_ge b (N.of_nat i))) by lia. Qed.
Lemma lor_shiftl_b2n w a b i : N.lor (N.lor w (N.shiftl (b2n a) i)) (N.shiftl (b2n b) i) = N.lor w (N.shiftl (b2n (a || b)) i).
Proof. rewrite <- N.lor_assoc, <- N.shiftl_lor. by destruct a, b. Qed.
Lemma land_b2n w c : N.land w (b2n c) = b2n (N.testbit w 0 && c).
Proof.
  destruct c; cbn [b2n]; [|by rewrite N.land_0_r, andb_false_r].
  change 1%N with (N.ones 1) at 1. rewrite N.land_ones. change (2 ^ 1)%N with 2%N. rewrite <- N.bit0_mod, andb_true_r.
  by destruct (N.testbit _ 0).
Qed.
Lemma testbit_b2n a : N.testbit (b2n a) 0 = a.
Proof. by destruct a. Qed.
Lemma of_b2n c : Z.of_N (b2n c) = b2z c.
Proof. by destruct c. Qed.

Definition inblk (k i c : nat) : bool := Nat.leb (k * 64) c && Nat.ltb c (k * 64 + i).

(** ** The automata of one column of one clause *)
Lemma two_sets m j c v1 v2 : nm_good m -> (2 * j + 1 < nm_rows m)%nat -> (c < nm_cols m)%nat ->
  exists m1 m', nm_set m (2 * j + 0) c v1 = Ret m1 /\ nm_set m1 (2 * j + 1) c v2 = Ret m' /\ nm_good m1 /\ nm_same_shape m m1 /\
    nm_cell m1 (2 * j + 1) c = nm_cell m (2 * j + 1) c /\ nm_cell m1 (2 * j) c = wrap_s (nm_w m) v1 /\
    nupd (fun r c' v => if Nat.eqb c' c then on_clause j (fun _ _ => wrap_s (nm_w m) v1) (fun _ _ => wrap_s (nm_w m) v2) r c' v else v) m m'.
Proof.
  intros Hg Hj Hc. rewrite Nat.add_0_r.
  destruct (nupd_set m (2 * j) c v1 Hg) as (m1 & E1 & U1); [lia|done|]. pose proof U1 as (Hg1 & (Ew & Er & Ec) & Hcell).
  destruct (nupd_set m1 (2 * j + 1) c v2 Hg1) as (m2 & E2 & U2); [lia|lia|].
  exists m1, m2. split_and!; [done|done|done|done| | |].
  - rewrite Hcell by lia. unfold at_cell. by rewrite (proj2 (Nat.eqb_neq (2 * j + 1) (2 * j))) by lia.
  - rewrite Hcell by lia. unfold at_cell. by rewrite !Nat.eqb_refl.
  - eapply nupd_ext; [eapply nupd_trans; [exact U1|exact U2]| |done].
    intros r c' v Hr Hc' _ _. cbn beta. rewrite Ew. by rewrite <- at_cell_fuse.
Qed.
(** the columns of a block done so far *)
Lemma inblk_step {T} j k i gP gN (r c : nat) (v : T) (a b : T) :
  (c = (k * 64 + i)%nat -> (r = (2 * j)%nat -> a = gP c v) /\ (r = (2 * j + 1)%nat -> b = gN c v)) ->
  (if Nat.eqb c (k * 64 + i) then on_clause j (fun _ _ => a) (fun _ _ => b) r c (if inblk k i c then on_clause j gP gN r c v else v)
   else if inblk k i c then on_clause j gP gN r c v else v) = (if inblk k (i + 1) c then on_clause j gP gN r c v else v).
Proof.
  intros H. unfold inblk. destruct (Nat.eqb_spec c (k * 64 + i)) as [E|E].
  - destruct (H E) as [Ha Hb]. rewrite (proj2 (Nat.leb_le (k * 64) c)) by lia.
    rewrite (proj2 (Nat.ltb_ge c (k * 64 + i))) by lia. rewrite (proj2 (Nat.ltb_lt c (k * 64 + (i + 1)))) by lia.
    cbn [andb]. unfold on_clause. destruct (Nat.eqb_spec r (2 * j)); [auto|]. destruct (Nat.eqb_spec r (2 * j + 1)); auto.
  - destruct (Nat.leb_spec (k * 64) c), (Nat.ltb_spec c (k * 64 + i)), (Nat.ltb_spec c (k * 64 + (i + 1))); cbn [andb]; try done; lia.
Qed.

Lemma testbit_shiftr0 w i : N.testbit (N.shiftr w i) 0 = N.testbit w i.
Proof. by rewrite N.shiftr_spec', N.add_0_l. Qed.

(** ** Flipping the polarity bits of one block *)
Lemma words_join j k bits m p m' pf nfl gP gN fP fN :
  bgood (m, p) -> (2 * j + 1 < nm_rows m)%nat -> (k * 64 + bits <= nm_cols m)%nat -> (0 < bits <= 64)%nat ->
  nupd (fun r c v => if inblk k bits c then on_clause j gP gN r c v else v) m m' ->
  fw bits (fun b => fP (k * 64 + b)%nat) pf -> fw bits (fun b => fN (k * 64 + b)%nat) nfl ->
  exists p', xor_blocks j k p pf nfl = Ret p' /\
    bupd (fun r c v => if inblk k bits c then on_clause j (fun c v => (gP c v.1, xorb v.2 (fP c))) (fun c v => (gN c v.1, xorb v.2 (fN c))) r c v else v)
      (m, p) (m', p').
Proof.
  intros Hs Hj Hb Hb64 U F1 F2. unfold xor_blocks.
  pose proof Hs as (Hn & Hp & Ep & Epc). cbn [fst snd] in Hn, Hp, Ep, Epc.
  assert (k < bm_row_blocks p)%nat as Hkr. { destruct Hp as (Hp1 & _). simpl in Hp1. nia. }
  destruct (bm_block_spec 64 p (2 * j + 0) k) as (pp & E1 & O1 & T1); [lia|done|lia|done|].
  destruct (bm_block_spec 64 p (2 * j + 1) k) as (pn & E2 & O2 & T2); [lia|done|lia|done|].
  rewrite E1. cbn [obind]. rewrite Nat.add_0_r in *.
  destruct (bm_set_block_spec 64 p (2 * j) k (N.lxor pp pf)) as (p2 & -> & Hp2 & (S1 & S2 & S3) & B2); [lia|done|lia|done| |].
  { apply block_ok_lxor; [done|]. eapply fw_ok; [|exact F1]. lia. }
  cbn [obind].
  destruct (bm_block_spec 64 p2 (2 * j + 1) k) as (pn' & E2' & O2' & T2'); [lia|done|lia|lia|].
  assert (pn' = pn) as ->.
  { apply N.bits_inj. intros b. destruct (N.lt_ge_cases b 64) as [Hb'|Hb']; [|by rewrite O2, O2'].
    rewrite <- (N2Nat.id b). rewrite T2, T2' by lia. rewrite B2 by nia.
    by rewrite (proj2 (Nat.eqb_neq (2 * j + 1) (2 * j))) by lia. }
  rewrite E2'. cbn [obind].
  destruct (bm_set_block_spec 64 p2 (2 * j + 1) k (N.lxor pn nfl)) as (p3 & -> & Hp3 & (S4 & S5 & S6) & B3); [lia|done|lia|lia| |].
  { apply block_ok_lxor; [done|]. eapply fw_ok; [|exact F2]. lia. }
  exists p3. split; [done|].
  pose proof U as (Hg & (Ew & Er & Ec) & Hcell).
  assert (forall r c, (r < nm_rows m)%nat -> (c < bm_row_blocks p * 64)%nat ->
    bm_bit 64 p3 r c = if inblk k bits c then
      (if Nat.eqb r (2 * j) then xorb (bm_bit 64 p r c) (fP c)
       else if Nat.eqb r (2 * j + 1) then xorb (bm_bit 64 p r c) (fN c)
       else bm_bit 64 p r c) else bm_bit 64 p r c) as HB.
  { intros r c Hr Hcc. rewrite B3 by (rewrite S3; lia). rewrite B2 by lia. unfold inblk.
    assert (forall row f w pw, fw bits (fun b => f (k * 64 + b)%nat) w ->
       (forall i, (i < 64)%nat -> N.testbit pw (N.of_nat i) = bm_bit 64 p row (k * 64 + i)) -> (c / 64 = k)%nat ->
       N.testbit (N.lxor pw w) (N.of_nat (c mod 64)%nat) =
       if Nat.leb (k * 64) c && Nat.ltb c (k * 64 + bits)
       then xorb (bm_bit 64 p row c) (f c) else bm_bit 64 p row c) as HF.
    { intros row f w pw Fw Tp Ek. pose proof (Nat.div_mod c 64 ltac:(lia)) as Hdm.
      pose proof (Nat.mod_upper_bound c 64 ltac:(lia)). rewrite Ek in Hdm.
      rewrite N.lxor_spec, Tp, Fw by lia. rewrite Nat2N.id. replace (k * 64 + c mod 64)%nat with c by lia.
      rewrite (proj2 (Nat.leb_le (k * 64) c)) by lia. cbn [andb].
      destruct (Nat.ltb_spec c (k * 64 + bits)).
      - by rewrite (proj2 (N.ltb_lt (N.of_nat (c mod 64)%nat) (N.of_nat bits))) by lia.
      - rewrite (proj2 (N.ltb_ge (N.of_nat (c mod 64)%nat) (N.of_nat bits))) by lia. apply xorb_false_r. }
    destruct (Nat.eqb_spec (c / 64)%nat k) as [Ek|Ek].
    - rewrite !andb_true_r.
      destruct (Nat.eqb_spec r (2 * j + 1)) as [->|Hr1].
      + rewrite (proj2 (Nat.eqb_neq (2 * j + 1) (2 * j))) by lia. by rewrite (HF (2 * j + 1)%nat fN nfl pn F2 T2 Ek).
      + destruct (Nat.eqb_spec r (2 * j)) as [->|Hr2].
        * by rewrite (HF (2 * j)%nat fP pf pp F1 T1 Ek).
        * by destruct (_ && _).
    - rewrite !andb_false_r.
      destruct (Nat.leb_spec (k * 64) c); [|done]. destruct (Nat.ltb_spec c (k * 64 + bits)); [|done].
      exfalso. apply Ek. symmetry. apply (Nat.div_unique c 64 k (c - k * 64)); lia. }
  split; [|split; [|split]].
  - cbn [fst snd] in *; split_and!; simpl; auto; congruence.
  - cbn [fst snd] in *; repeat split; simpl; auto; congruence.
  - intros r c Hr Hcc. unfold jv. cbn [fst snd] in *. rewrite Hcell by done. rewrite HB; [|done|destruct Hp as (? & _); lia].
    destruct (inblk k bits c); [|done]. unfold on_clause. cbn [fst snd]. by destruct (Nat.eqb r (2 * j)), (Nat.eqb r (2 * j + 1)).
  - cbn [fst snd] in *. intros r c Hr Hcc. rewrite HB by lia. unfold inblk. rewrite (proj2 (Nat.ltb_ge c (k * 64 + bits))) by lia.
    by rewrite andb_false_r.
Qed.

(** ** All blocks of a row *)
Lemma for_blocks_spec nf process s F :
  bgood s -> nm_cols s.1 = nf ->
  (forall k bits s1, bgood s1 -> bsame s s1 -> (k * 64 + bits <= nf)%nat -> (0 < bits <= 64)%nat ->
     exists s2, process k bits s1 = Ret s2 /\ bupd (fun r c v => if inblk k bits c then F r c v else v) s1 s2) ->
  exists s', for_blocks nf process s = Ret s' /\ bupd F s s'.
Proof.
  intros Hs Hc HP. unfold for_blocks.
  set (tail := (nf mod 64)%nat). set (full := (blocks_for 64 nf - (if Nat.eqb tail 0 then 0 else 1))%nat).
  assert (nf = full * 64 + tail)%nat as Enf.
  { pose proof (Nat.div_mod nf 64 ltac:(lia)) as Hdm. fold tail in Hdm.
    assert (full = nf / 64)%nat as ->; [|lia]. unfold full, blocks_for.
    destruct (Nat.eqb_spec tail 0) as [E|E].
    - rewrite Nat.sub_0_r. symmetry. apply (Nat.div_unique _ 64 _ 63); lia.
    - pose proof (Nat.mod_upper_bound nf 64 ltac:(lia)). fold tail in H.
      assert ((nf + 64 - 1) / 64 = nf / 64 + 1)%nat; [|lia].
      symmetry. apply (Nat.div_unique _ 64 _ (tail - 1)); lia. }
  destruct (ofor_inv (fun k s1 => bupd (fun r c v => if Nat.ltb c (k * 64) then F r c v else v) s s1) 0 full s
    (fun k mp => process k 64%nat mp)) as (s1 & -> & U).
  - eapply bupd_ext; [by apply bupd_refl| |done]. done.
  - intros k s1 Hk U. pose proof U as (Hg & Hsm & _).
    destruct (HP k 64%nat s1) as (s2 & -> & U2); [done|done|lia|lia|].
    exists s2. split; [done|]. eapply bupd_ext; [eapply bupd_trans; [exact U|exact U2]| |done].
    intros r c v Hr Hcc _ _. cbn beta. unfold inblk.
    destruct (Nat.ltb_spec c (k * 64)), (Nat.leb_spec (k * 64) c), (Nat.ltb_spec c (k * 64 + 64)),
      (Nat.ltb_spec c ((k + 1) * 64)); cbn [andb]; try lia; done.
  - cbn [obind]. destruct (Nat.eqb_spec tail 0) as [E|E].
    + exists s1. split; [done|]. eapply bupd_ext; [exact U| |done]. intros r c v Hr Hcc _ _. cbn beta.
      by rewrite (proj2 (Nat.ltb_lt c _)) by lia.
    + pose proof U as (Hg & Hsm & _). pose proof (Nat.mod_upper_bound nf 64 ltac:(lia)) as Hm. fold tail in Hm.
      destruct (HP full tail s1) as (s2 & -> & U2); [done|done|lia|lia|].
      exists s2. split; [done|]. eapply bupd_ext; [eapply bupd_trans; [exact U|exact U2]| |done].
      intros r c v Hr Hcc _ _. cbn beta. unfold inblk. cbn [Nat.add].
      destruct (Nat.ltb_spec c (full * 64)), (Nat.leb_spec (full * 64) c), (Nat.ltb_spec c (full * 64 + tail)); cbn [andb]; try lia; done.
Qed.

(** ** block1 *)
Definition tdec (Ns : Z) (t : bool) (v : Z) : Z := if t then down Ns v else v.
Definition b1f (Ns : Z) (t : bool) (v : Z * bool) : Z * bool := if t then decf Ns v else v.

Lemma bw_block1_spec nf Ns j ct1 ct2 s :
  bgood s -> nm_cols s.1 = nf -> (2 * j + 1 < nm_rows s.1)%nat -> zo_list nf ct1 -> zo_list nf ct2 -> Ns <= 2 ^ (nm_w s.1 - 1) ->
  exists s', bw_block1 nf Ns j ct1 ct2 s = Ret s' /\
    bupd (on_clause j (fun k => b1f Ns (toss ct1 k)) (fun k => b1f Ns (toss ct2 k))) s s'.
Proof.
  intros Hs Hc Hj H1 H2 HN. unfold bw_block1.
  apply bupd_loop; auto. intros i [m p] Hi Hg Hsame.
  pose proof Hsame as [(Ew & Er & Ec) _]. simpl in Ew, Er, Ec.
  destruct (toss_get nf ct1 i H1 Hi) as (v1 & -> & _ & T1).
  destruct (toss_get nf ct2 i H2 Hi) as (v2 & -> & _ & T2). cbn [obind]. rewrite <- T1, <- T2.
  assert (exists s2, (if toss ct1 i then bw_dec_cell Ns (2 * j + 0) i (m, p).1 (m, p).2 else Ret (m, p)) = Ret s2 /\
    bupd (at_cell (2 * j) i (b1f Ns (toss ct1 i))) (m, p) s2) as (s2 & -> & U).
  { rewrite Nat.add_0_r. destruct (toss ct1 i).
    - apply (bw_dec_cell_spec (m, p)); simpl; auto; try lia. by rewrite Ew.
    - eexists. split; [done|]. eapply bupd_ext; [by apply bupd_refl| |done]. intros. unfold at_cell. by destruct (_ && _). }
  cbn [obind]. pose proof U as (Hg2 & [(Ew2 & Er2 & Ec2) _] & _). cbn [fst snd] in Ew2, Er2, Ec2.
  assert (exists s3, (if toss ct2 i then bw_dec_cell Ns (2 * j + 1) i s2.1 s2.2 else Ret s2) = Ret s3 /\
    bupd (at_cell (2 * j + 1) i (b1f Ns (toss ct2 i))) s2 s3) as (s3 & -> & U3).
  { destruct (toss ct2 i).
    - apply bw_dec_cell_spec; simpl; auto; try lia. by rewrite Ew2, Ew.
    - eexists. split; [done|]. eapply bupd_ext; [by apply bupd_refl| |done]. intros. unfold at_cell. by destruct (_ && _). }
  exists s3. split; [done|]. eapply bupd_ext; [eapply bupd_trans; [exact U|exact U3]| |done].
  intros r c v Hr Hcc Hin Ev. cbn beta. rewrite <- at_cell_fuse. destruct (Nat.eqb_spec c i) as [->|]; done.
Qed.

Lemma down_wrap w Ns v t : 0 < w -> Ns <= 2 ^ (w - 1) -> in_w w v ->
  wrap_s w (v - b2z (t && (- Ns <? v))) = tdec Ns t v.
Proof.
  intros Hw HN Hv. unfold tdec, down. destruct t; cbn [andb].
  - destruct (Z.ltb_spec (- Ns) v) as [H|H]; cbn [b2z].
    + apply wrap_in_w; [done|]. eapply in_w_lower; eauto.
    + rewrite Z.sub_0_r. by apply wrap_in_w.
  - cbn [b2z]. rewrite Z.sub_0_r. by apply wrap_in_w.
Qed.
Lemma block1_bits_spec Ns j k bits m pd nd :
  nm_good m -> (2 * j + 1 < nm_rows m)%nat -> (k * 64 + bits <= nm_cols m)%nat -> Ns <= 2 ^ (nm_w m - 1) ->
  exists m' pd' nd' pf nfl, block1_bits Ns j k bits m pd nd = Ret (m', pd', nd', pf, nfl) /\
    nupd (fun r c v => if inblk k bits c then on_clause j (fun c => tdec Ns (N.testbit pd (N.of_nat (c - k * 64))))
                                                          (fun c => tdec Ns (N.testbit nd (N.of_nat (c - k * 64)))) r c v else v) m m' /\
    fw bits (fun b => (nm_cell m (2 * j) (k * 64 + b) =? 0) && (N.testbit pd (N.of_nat b) && (- Ns <? nm_cell m (2 * j) (k * 64 + b)))) pf /\
    fw bits (fun b => (nm_cell m (2 * j + 1) (k * 64 + b) =? 0) && (N.testbit nd (N.of_nat b) && (- Ns <? nm_cell m (2 * j + 1) (k * 64 + b)))) nfl.
Proof.
  intros Hn Hj Hb HN. unfold block1_bits.
  match goal with |- context[nupd ?F m _] => pose (G := fun i : nat => fun r c v => if inblk k i c then on_clause j (fun c => tdec Ns (N.testbit pd (N.of_nat (c - k * 64))))
                                                          (fun c => tdec Ns (N.testbit nd (N.of_nat (c - k * 64)))) r c v else v) end.
  edestruct (ofor_inv (fun i '(m1, a, b, pf, nfl) =>
      nupd (G i) m m1 /\ a = N.shiftr pd (N.of_nat i) /\ b = N.shiftr nd (N.of_nat i) /\
      fw i (fun b => (nm_cell m (2 * j) (k * 64 + b) =? 0) && (N.testbit pd (N.of_nat b) && (- Ns <? nm_cell m (2 * j) (k * 64 + b)))) pf /\
      fw i (fun b => (nm_cell m (2 * j + 1) (k * 64 + b) =? 0) && (N.testbit nd (N.of_nat b) && (- Ns <? nm_cell m (2 * j + 1) (k * 64 + b)))) nfl) 0 bits)
    as ([[[[m' a] b] pf] nfl] & E & H).
  3: { exists m', a, b, pf, nfl. split; [exact E|]. destruct H as (U & _ & _ & F1 & F2). auto. }
  - split_and!; [|by rewrite N.shiftr_0_r|by rewrite N.shiftr_0_r|apply fw_0|apply fw_0].
    eapply nupd_ext; [by apply nupd_refl| |done]. intros. unfold G, inblk.
    destruct (Nat.leb_spec (k * 64) c), (Nat.ltb_spec c (k * 64 + 0)); simpl; try done; lia.
  - intros i [[[[m1 a] b] pf] nfl] Hi (U & -> & -> & F1 & F2). cbn beta iota zeta. cbn [Nat.add].
    pose proof U as (Hg & (Ew & Er & Ec) & Hcell).
    assert (forall r, (r < nm_rows m)%nat -> nm_cell m1 r (k * 64 + i) = nm_cell m r (k * 64 + i)) as C.
    { intros r Hr. rewrite Hcell by lia. unfold G, inblk. rewrite (proj2 (Nat.ltb_ge (k * 64 + i) (k * 64 + i))) by lia. by rewrite andb_false_r. }
    rewrite !nm_get_good by (auto; lia). cbn [obind]. rewrite Nat.add_0_r. rewrite !C by lia.
    rewrite !land_b2n, !testbit_b2n, !testbit_shiftr0, !of_b2n.
    destruct (two_sets m1 j (k * 64 + i) (nm_cell m (2 * j) (k * 64 + i) - b2z (N.testbit pd (N.of_nat i) && (- Ns <? nm_cell m (2 * j) (k * 64 + i))))
      (nm_cell m (2 * j + 1) (k * 64 + i) - b2z (N.testbit nd (N.of_nat i) && (- Ns <? nm_cell m (2 * j + 1) (k * 64 + i)))))
      as (m2 & m3 & E2 & E3 & _ & _ & _ & _ & U3); [done|lia|lia|].
    rewrite Nat.add_0_r in E2. rewrite E2. cbn [obind]. rewrite E3. cbn [obind].
    eexists. split; [done|]. pose proof Hn as (_ & Hw & Hin).
    split_and!.
    + eapply nupd_ext; [eapply nupd_trans; [exact U|exact U3]| |done].
      intros r c v Hr Hc _ Ev. unfold G. cbn beta. rewrite Ew. rewrite !down_wrap by (auto; apply Hin; lia).
      apply (inblk_step j k i (fun c => tdec Ns (N.testbit pd (N.of_nat (c - k * 64)))) (fun c => tdec Ns (N.testbit nd (N.of_nat (c - k * 64))))).
      intros ->. rewrite Ev. replace (k * 64 + i - k * 64)%nat with i by lia. by split; intros ->.
    + rewrite N.shiftr_shiftr. f_equal. lia.
    + rewrite N.shiftr_shiftr. f_equal. lia.
    + exact (fw_step i _ pf F1).
    + exact (fw_step i _ nfl F2).
Qed.

(** ** Tosses packed in words *)
Definition word_bit (W : list N) (c : nat) : bool :=
  match W !! (c / 64)%nat with Some b => N.testbit b (N.of_nat (c mod 64)) | None => false end.

Lemma word_at W k nf : (blocks_for 64 nf <= length W)%nat -> (k * 64 < nf)%nat ->
  exists x, vget W k = Ret x /\ forall i, (i < 64)%nat -> N.testbit x (N.of_nat i) = word_bit W (k * 64 + i).
Proof.
  intros Hl Hk. assert (k < blocks_for 64 nf)%nat by (unfold blocks_for; apply Nat.div_le_lower_bound; lia).
  destruct (vget_ret_lt W k) as (x & Ex & Eg); [lia|].
  exists x. split; [done|]. intros i Hi. unfold word_bit.
  rewrite Nat.div_add_l, (Nat.div_small i), Nat.add_0_r, Ex by lia.
  by rewrite Nat.add_comm, Nat.mod_add, Nat.mod_small by lia.
Qed.
Lemma inblk_sub k bits c : (bits <= 64)%nat -> inblk k bits c = true -> (k * 64 <= c < k * 64 + bits /\ k * 64 + (c - k * 64) = c /\ c - k * 64 < 64)%nat.
Proof.
  intros Hb H. unfold inblk in H. apply andb_true_iff in H as [H1 H2]. apply Nat.leb_le in H1. apply Nat.ltb_lt in H2. lia.
Qed.

Lemma bw_block1_words_spec nf Ns j W1 W2 s :
  bgood s -> nm_cols s.1 = nf -> (2 * j + 1 < nm_rows s.1)%nat ->
  (blocks_for 64 nf <= length W1)%nat -> (blocks_for 64 nf <= length W2)%nat -> 1 <= Ns <= 2 ^ (nm_w s.1 - 1) ->
  exists s', bw_block1_words Ns j W1 W2 s = Ret s' /\
    bupd (on_clause j (fun c => b1f Ns (word_bit W1 c)) (fun c => b1f Ns (word_bit W2 c))) s s'.
Proof.
  intros Hs Hc Hj H1 H2 HN. unfold bw_block1_words. pose proof Hs as (_ & _ & _ & Hpc). rewrite Hpc, Hc.
  apply for_blocks_spec; auto. intros k bits [m p] Hg Hsame Hb Hb64.
  pose proof Hsame as [(Ew & Er & Ec) _]. cbn [fst snd] in Ew, Er, Ec.
  destruct (word_at W1 k nf H1 ltac:(lia)) as (x1 & -> & T1). destruct (word_at W2 k nf H2 ltac:(lia)) as (x2 & -> & T2). cbn [obind].
  destruct (block1_bits_spec Ns j k bits m x1 x2) as (m' & pd' & nd' & pf & nfl & -> & U & F1 & F2); [apply Hg|lia|lia|rewrite Ew; lia|].
  cbn [obind].
  destruct (words_join j k bits m p m' pf nfl _ _
    (fun c => (nm_cell m (2 * j) c =? 0) && (N.testbit x1 (N.of_nat (c - k * 64)) && (- Ns <? nm_cell m (2 * j) c)))
    (fun c => (nm_cell m (2 * j + 1) c =? 0) && (N.testbit x2 (N.of_nat (c - k * 64)) && (- Ns <? nm_cell m (2 * j + 1) c)))
    Hg ltac:(lia) ltac:(lia) Hb64 U) as (p' & -> & UB).
  { intros b. rewrite F1. by replace (k * 64 + N.to_nat b - k * 64)%nat with (N.to_nat b) by lia. }
  { intros b. rewrite F2. by replace (k * 64 + N.to_nat b - k * 64)%nat with (N.to_nat b) by lia. }
  cbn [obind]. exists (m', p'). split; [done|]. eapply bupd_ext; [exact UB| |done].
  intros r c v Hr Hcc Hin Ev. cbn beta. destruct (inblk k bits c) eqn:Eb; [|done].
  apply inblk_sub in Eb as (Hk & Ek & Hi); [|lia].
  assert (forall t, (tdec Ns t v.1, xorb v.2 ((v.1 =? 0) && (t && (- Ns <? v.1)))) = b1f Ns t v) as Q.
  { intros t. unfold tdec, b1f, decf. destruct v as [st q]. cbn [fst snd]. destruct t; cbn [andb].
    - f_equal. destruct (Z.eqb_spec st 0) as [->|]; cbn [andb]; [|apply xorb_false_r].
      rewrite (proj2 (Z.ltb_lt _ _)) by lia. apply xorb_true_r.
    - by rewrite andb_false_r, xorb_false_r. }
  unfold on_clause. destruct (Nat.eqb_spec r (2 * j)) as [->|]; [|destruct (Nat.eqb_spec r (2 * j + 1)) as [->|]; [|done]].
  - rewrite T1, Ek by lia. rewrite <- Q. subst v. done.
  - rewrite T2, Ek by lia. rewrite <- Q. subst v. done.
Qed.

(** ** block2 *)
Definition step2 (Ns : Z) (inc dec : bool) (v : Z) : Z :=
  if inc then up Ns v else if dec then down Ns v else v.
Lemma step2_wrap w Ns v inc dec : 0 < w -> Ns <= 2 ^ (w - 1) -> in_w w v -> inc && dec = false ->
  wrap_s w (wrap_s w (v + b2z (inc && (v <? Ns - 1))) - b2z (dec && (- Ns <? v))) = step2 Ns inc dec v.
Proof.
  intros Hw HN Hv Hx. unfold step2, up. destruct inc.
  - destruct dec; [done|]. cbn [andb b2z]. rewrite Z.sub_0_r.
    destruct (Z.ltb_spec v (Ns - 1)); cbn [b2z].
    + assert (in_w w (v + 1)) as Hv1 by (unfold in_w in *; lia). by rewrite !(wrap_in_w w (v + 1)).
    + rewrite Z.add_0_r. by rewrite !(wrap_in_w w v).
  - cbn [andb b2z]. rewrite Z.add_0_r, (wrap_in_w w v) by done. exact (down_wrap w Ns v dec Hw HN Hv).
Qed.
Lemma block2_bits_spec Ns j k bits m pi pd ni nd :
  nm_good m -> (2 * j + 1 < nm_rows m)%nat -> (k * 64 + bits <= nm_cols m)%nat -> Ns <= 2 ^ (nm_w m - 1) ->
  (bits <= 64)%nat ->
  (forall b, (b < 64)%N -> N.testbit pi b && N.testbit pd b = false) -> (forall b, (b < 64)%N -> N.testbit ni b && N.testbit nd b = false) ->
  exists m' q pf nfl, block2_bits Ns j k bits m pi pd ni nd = Ret (m', q, pf, nfl) /\
    nupd (fun r c v => if inblk k bits c
      then on_clause j (fun c => step2 Ns (N.testbit pi (N.of_nat (c - k * 64))) (N.testbit pd (N.of_nat (c - k * 64))))
                       (fun c => step2 Ns (N.testbit ni (N.of_nat (c - k * 64))) (N.testbit nd (N.of_nat (c - k * 64)))) r c v else v) m m' /\
    fw bits (fun b => let st := nm_cell m (2 * j) (k * 64 + b) in
                      (st =? 0) && (N.testbit pd (N.of_nat b) && (- Ns <? st)) ||
                      (step2 Ns (N.testbit pi (N.of_nat b)) (N.testbit pd (N.of_nat b)) st =? 0) && (N.testbit pi (N.of_nat b) && (st <? Ns - 1))) pf /\
    fw bits (fun b => let st := nm_cell m (2 * j + 1) (k * 64 + b) in
                      (st =? 0) && (N.testbit nd (N.of_nat b) && (- Ns <? st)) ||
                      (step2 Ns (N.testbit ni (N.of_nat b)) (N.testbit nd (N.of_nat b)) st =? 0) && (N.testbit ni (N.of_nat b) && (st <? Ns - 1))) nfl.
Proof.
  intros Hn Hj Hb HN Hb64 Xp Xn. unfold block2_bits.
  pose (gP := fun c => step2 Ns (N.testbit pi (N.of_nat (c - k * 64))) (N.testbit pd (N.of_nat (c - k * 64)))).
  pose (gN := fun c => step2 Ns (N.testbit ni (N.of_nat (c - k * 64))) (N.testbit nd (N.of_nat (c - k * 64)))).
  pose (fP := fun b => let st := nm_cell m (2 * j) (k * 64 + b) in
                      (st =? 0) && (N.testbit pd (N.of_nat b) && (- Ns <? st)) ||
                      (step2 Ns (N.testbit pi (N.of_nat b)) (N.testbit pd (N.of_nat b)) st =? 0) && (N.testbit pi (N.of_nat b) && (st <? Ns - 1))).
  pose (fN := fun b => let st := nm_cell m (2 * j + 1) (k * 64 + b) in
                      (st =? 0) && (N.testbit nd (N.of_nat b) && (- Ns <? st)) ||
                      (step2 Ns (N.testbit ni (N.of_nat b)) (N.testbit nd (N.of_nat b)) st =? 0) && (N.testbit ni (N.of_nat b) && (st <? Ns - 1))).
  pose (G := fun i : nat => fun r c v => if inblk k i c then on_clause j gP gN r c v else v).
  edestruct (ofor_inv (fun i '(m1, q, pf, nfl) =>
      nupd (G i) m m1 /\ q = (N.shiftr pi (N.of_nat i), N.shiftr pd (N.of_nat i), N.shiftr ni (N.of_nat i), N.shiftr nd (N.of_nat i)) /\
      fw i fP pf /\ fw i fN nfl) 0 bits)
    as ([[[m' q] pf] nfl] & E & H).
  3: { exists m', q, pf, nfl. split; [exact E|]. destruct H as (U & _ & F1 & F2). auto. }
  - split_and!; [|by rewrite !N.shiftr_0_r|apply fw_0|apply fw_0].
    eapply nupd_ext; [by apply nupd_refl| |done]. intros. unfold G, inblk.
    destruct (Nat.leb_spec (k * 64) c), (Nat.ltb_spec c (k * 64 + 0)); simpl; try done; lia.
  - intros i [[[m1 q] pf] nfl] Hi (U & -> & F1 & F2). cbn beta iota zeta. cbn [Nat.add].
    pose proof U as (Hg & (Ew & Er & Ec) & Hcell).
    assert (forall r, (r < nm_rows m)%nat -> nm_cell m1 r (k * 64 + i) = nm_cell m r (k * 64 + i)) as C.
    { intros r Hr. rewrite Hcell by lia. unfold G, inblk. rewrite (proj2 (Nat.ltb_ge (k * 64 + i) (k * 64 + i))) by lia. by rewrite andb_false_r. }
    rewrite !nm_get_good by (auto; lia). cbn [obind]. rewrite Nat.add_0_r. rewrite !C by lia.
    rewrite !land_b2n, !testbit_b2n, !testbit_shiftr0, !of_b2n.
    set (P := nm_cell m (2 * j) (k * 64 + i)). set (Q := nm_cell m (2 * j + 1) (k * 64 + i)).
    set (c := (k * 64 + i)%nat). pose proof Hn as (_ & Hw & Hin).
    destruct (nupd_set m1 (2 * j) c (P + b2z (N.testbit pi (N.of_nat i) && (P <? Ns - 1))) Hg) as (m2 & -> & U2); [lia|lia|].
    cbn [obind]. pose proof U2 as (Hg2 & (Ew2 & Er2 & Ec2) & Hc2).
    rewrite nm_get_good by (auto; lia). cbn [obind].
    rewrite (Hc2 (2 * j)%nat c) by lia. unfold at_cell. rewrite !Nat.eqb_refl. cbn [andb].
    match goal with |- context[nm_set m2 (2 * j) c ?V] => destruct (nupd_set m2 (2 * j) c V Hg2) as (m3 & -> & U3); [lia|lia|] end.
    cbn [obind]. pose proof U3 as (Hg3 & (Ew3 & Er3 & Ec3) & Hc3).
    match goal with |- context[nm_set m3 (2 * j + 1) c ?V] => destruct (nupd_set m3 (2 * j + 1) c V Hg3) as (m4 & -> & U4); [lia|lia|] end.
    cbn [obind]. pose proof U4 as (Hg4 & (Ew4 & Er4 & Ec4) & Hc4).
    rewrite nm_get_good by (auto; lia). cbn [obind].
    rewrite (Hc4 (2 * j + 1)%nat c) by lia. unfold at_cell. rewrite !Nat.eqb_refl. cbn [andb].
    match goal with |- context[nm_set m4 (2 * j + 1) c ?V] => destruct (nupd_set m4 (2 * j + 1) c V Hg4) as (m5 & -> & U5); [lia|lia|] end.
    cbn [obind]. pose proof U5 as (Hg5 & (Ew5 & Er5 & Ec5) & Hc5).
    rewrite !nm_get_good by (auto; lia). cbn [obind].
    rewrite Ew4, Ew3, Ew2, Ew in *.
    assert (nm_cell m5 (2 * j) c = step2 Ns (N.testbit pi (N.of_nat i)) (N.testbit pd (N.of_nat i)) P) as D1.
    { rewrite Hc5 by lia. unfold at_cell. rewrite (proj2 (Nat.eqb_neq (2 * j) (2 * j + 1))) by lia. cbn [andb].
      rewrite Hc4 by lia. unfold at_cell. rewrite (proj2 (Nat.eqb_neq (2 * j) (2 * j + 1))) by lia. cbn [andb].
      rewrite Hc3 by lia. unfold at_cell. rewrite !Nat.eqb_refl. cbn [andb]. apply step2_wrap; auto; [apply Hin; lia|]. first [apply Xp; lia|apply Xn; lia]. }
    assert (nm_cell m5 (2 * j + 1) c = step2 Ns (N.testbit ni (N.of_nat i)) (N.testbit nd (N.of_nat i)) Q) as D2.
    { rewrite Hc5 by lia. unfold at_cell. rewrite !Nat.eqb_refl. cbn [andb]. apply step2_wrap; auto; [apply Hin; lia|]. first [apply Xp; lia|apply Xn; lia]. }
    rewrite D1, D2, !land_b2n, !testbit_b2n, !lor_shiftl_b2n.
    eexists. split; [done|].
    split_and!.
    + eapply nupd_ext; [eapply nupd_trans; [exact U|eapply nupd_trans; [exact U2|eapply nupd_trans; [exact U3|eapply nupd_trans; [exact U4|exact U5]]]]| |done].
      intros r c' v Hr Hcc _ Ev. cbn beta. unfold G.
      rewrite !step2_wrap by (first [done|apply Hin; lia|apply Xp; lia|apply Xn; lia]).
      rewrite <- (inblk_step j k i gP gN r c' v (step2 Ns (N.testbit pi (N.of_nat i)) (N.testbit pd (N.of_nat i)) P)
        (step2 Ns (N.testbit ni (N.of_nat i)) (N.testbit nd (N.of_nat i)) Q)).
      2:{ intros ->. rewrite Ev. unfold gP, gN. replace (k * 64 + i - k * 64)%nat with i by lia. by split; intros ->. }
      fold c. unfold at_cell, on_clause. destruct (Nat.eqb_spec c' c) as [->|]; [|by rewrite !andb_false_r].
      rewrite !andb_true_r. destruct (Nat.eqb_spec r (2 * j)) as [->|]; [|by destruct (Nat.eqb r (2 * j + 1))].
      by rewrite (proj2 (Nat.eqb_neq (2 * j) (2 * j + 1))) by lia.
    + rewrite !N.shiftr_shiftr. replace (N.of_nat i + 1)%N with (N.of_nat (i + 1)) by lia. done.
    + exact (fw_step i _ pf F1).
    + exact (fw_step i _ nfl F2).
Qed.

(** the increments of the word-wise kernel flip the polarity only when the automaton moves *)
Definition b2w (boost : bool) (Ns : Z) (lit t : bool) (v : Z * bool) : Z * bool :=
  if lit then (if boost || negb t then incf Ns v else v) else (if t then decf Ns v else v).

Lemma bw_block2_words_spec nf boost Ns j X W1 W2 s :
  bgood s -> nm_cols s.1 = nf -> (2 * j + 1 < nm_rows s.1)%nat -> bits_ok nf X ->
  (blocks_for 64 nf <= length W1)%nat -> (blocks_for 64 nf <= length W2)%nat -> 1 <= Ns <= 2 ^ (nm_w s.1 - 1) ->
  exists s', bw_block2_words boost Ns j X W1 W2 s = Ret s' /\
    bupd (on_clause j (fun c => b2w boost Ns (bv_bit 64 X c) (word_bit W1 c)) (fun c => b2w boost Ns (negb (bv_bit 64 X c)) (word_bit W2 c))) s s'.
Proof.
  intros Hs Hc Hj HX H1 H2 HN. unfold bw_block2_words. pose proof HX as (El & (Hl & _) & _). rewrite El.
  apply for_blocks_spec; auto. intros k bits [m p] Hg Hsame Hb Hb64.
  pose proof Hsame as [(Ew & Er & Ec) _]. cbn [fst snd] in Ew, Er, Ec.
  destruct (word_at (bv_blocks X) k nf) as (x & -> & Tx); [rewrite Hl, El; lia|lia|].
  destruct (word_at W1 k nf H1 ltac:(lia)) as (x1 & -> & T1). destruct (word_at W2 k nf H2 ltac:(lia)) as (x2 & -> & T2). cbn [obind].
  assert (forall a b, (b < 64)%N -> N.testbit (N.land x a) b && N.testbit (N.land (bnot 64 x) x1) b = false) as X1.
  { intros a b Hlt. rewrite !N.land_spec, testbit_bnot by done. by destruct (N.testbit x _), (N.testbit a _). }
  assert (forall a b, (b < 64)%N -> N.testbit (N.land (bnot 64 x) a) b && N.testbit (N.land x x2) b = false) as X2.
  { intros a b Hlt. rewrite !N.land_spec, testbit_bnot by done. by destruct (N.testbit x _), (N.testbit a _). }
  set (mp := if boost then N.ones 64 else bnot 64 x1). set (mn := if boost then N.ones 64 else bnot 64 x2).
  destruct (block2_bits_spec Ns j k bits m (N.land x mp) (N.land (bnot 64 x) x1) (N.land (bnot 64 x) mn) (N.land x x2))
    as (m' & q & pf & nfl & -> & U & F1 & F2); [apply Hg|lia|lia|rewrite Ew; lia|lia|apply X1|apply X2|].
  cbn [obind].
  set (fl := fun row i d c => let st := nm_cell m row c in (st =? 0) && (N.testbit d (N.of_nat (c - k * 64)) && (- Ns <? st)) ||
     (step2 Ns (N.testbit i (N.of_nat (c - k * 64))) (N.testbit d (N.of_nat (c - k * 64))) st =? 0) && (N.testbit i (N.of_nat (c - k * 64)) && (st <? Ns - 1))).
  destruct (words_join j k bits m p m' pf nfl _ _ (fl (2 * j)%nat (N.land x mp) (N.land (bnot 64 x) x1))
    (fl (2 * j + 1)%nat (N.land (bnot 64 x) mn) (N.land x x2)) Hg ltac:(lia) ltac:(lia) Hb64 U) as (p' & -> & UB).
  { intros b. rewrite F1. unfold fl. by replace (k * 64 + N.to_nat b - k * 64)%nat with (N.to_nat b) by lia. }
  { intros b. rewrite F2. unfold fl. by replace (k * 64 + N.to_nat b - k * 64)%nat with (N.to_nat b) by lia. }
  cbn [obind]. exists (m', p'). split; [done|]. eapply bupd_ext; [exact UB| |done].
  intros r c v Hr Hcc Hin Ev. cbn beta. destruct (inblk k bits c) eqn:Eb; [|done].
  apply inblk_sub in Eb as (Hk & Ek & Hi); [|lia].
  assert (forall lit t i d, i = lit && (boost || negb t) -> d = negb lit && t ->
    (step2 Ns i d v.1, xorb v.2 ((v.1 =? 0) && (d && (- Ns <? v.1)) || (step2 Ns i d v.1 =? 0) && (i && (v.1 <? Ns - 1)))) = b2w boost Ns lit t v) as Q.
  { intros lit t i d -> ->. unfold b2w. destruct v as [st q']. cbn [fst snd]. destruct lit; cbn [andb negb].
    - destruct (boost || negb t); cbn [step2]; [|by rewrite !andb_false_r, xorb_false_r].
      unfold incf, up. cbn [fst snd]. rewrite andb_false_r, orb_false_l.
      destruct (Z.ltb_spec st (Ns - 1)); cbn [andb]; [|by rewrite andb_false_r, xorb_false_r].
      rewrite andb_true_r. f_equal. destruct (st + 1 =? 0); [apply xorb_true_r|apply xorb_false_r].
    - destruct t; cbn [step2]; [|by rewrite !andb_false_r, xorb_false_r].
      unfold decf. cbn [fst snd]. rewrite !andb_false_r, orb_false_r. cbn [andb]. f_equal.
      destruct (Z.eqb_spec st 0) as [->|]; cbn [andb]; [|apply xorb_false_r].
      rewrite (proj2 (Z.ltb_lt _ _)) by lia. apply xorb_true_r. }
  assert (forall y, N.testbit (if boost then N.ones 64 else bnot 64 y) (N.of_nat (c - k * 64)) = boost || negb (N.testbit y (N.of_nat (c - k * 64)))) as Tm.
  { intros y. destruct boost; [apply N.ones_spec_low; lia|]. apply testbit_bnot. lia. }
  assert (word_bit (bv_blocks X) c = bv_bit 64 X c) as Ewb by done.
  unfold on_clause. destruct (Nat.eqb_spec r (2 * j)) as [->|]; [|destruct (Nat.eqb_spec r (2 * j + 1)) as [->|]; [|done]].
  - rewrite <- (Q (bv_bit 64 X c) (word_bit W1 c) (N.testbit (N.land x mp) (N.of_nat (c - k * 64))) (N.testbit (N.land (bnot 64 x) x1) (N.of_nat (c - k * 64)))).
    + subst v. done.
    + unfold mp. rewrite N.land_spec, Tm, Tx, T1, Ek by lia. done.
    + rewrite N.land_spec, testbit_bnot, Tx, T1, Ek by lia. done.
  - rewrite <- (Q (negb (bv_bit 64 X c)) (word_bit W2 c) (N.testbit (N.land (bnot 64 x) mn) (N.of_nat (c - k * 64))) (N.testbit (N.land x x2) (N.of_nat (c - k * 64)))).
    + subst v. done.
    + unfold mn. rewrite N.land_spec, Tm, testbit_bnot, Tx, T2, Ek by lia. done.
    + rewrite N.land_spec, Tx, T2, Ek by lia. by rewrite negb_involutive.
Qed.

(** ** block3_ *)
Definition b3s (lit : bool) (v : Z * bool) : Z * bool :=
  if lit || (0 <=? v.1) then v else (v.1 + 1, if v.1 + 1 =? 0 then negb v.2 else v.2).
Lemma bw_inc_excluded_spec r c s : bgood s -> (r < nm_rows s.1)%nat -> (c < nm_cols s.1)%nat ->
  exists s', bw_inc_excluded r c s.1 s.2 = Ret s' /\ bupd (at_cell r c (b3s false)) s s'.
Proof.
  intros Hs Hr Hc. unfold bw_inc_excluded. pose proof Hs as (Hn & _). pose proof Hn as (_ & Hw & Hin).
  rewrite nm_get_good by done. cbn [obind]. destruct (Z.leb_spec 0 (nm_cell s.1 r c)) as [H|H].
  - exists s. split; [by destruct s|]. eapply bupd_ext; [by apply bupd_refl| |done].
    intros r' c' v Hr' Hc' _ Ev. unfold at_cell. destruct (Nat.eqb_spec r' r) as [->|]; [|done]. destruct (Nat.eqb_spec c' c) as [->|]; [|done].
    subst v. unfold b3s, jv. cbn [fst snd andb orb]. by rewrite (proj2 (Z.leb_le _ _)).
  - destruct (bupd_nset s Hs r c Hr Hc (nm_cell s.1 r c + 1)) as (m' & -> & U). cbn [obind].
    pose proof U as (Hg & [(Ew & Er & Ec) _] & HJ & _). cbn [fst snd] in *.
    rewrite nm_get_good by (try apply Hg; lia). cbn [obind].
    assert (nm_cell m' r c = nm_cell s.1 r c + 1) as Ecell.
    { pose proof (HJ r c Hr Hc) as Q. unfold jv, at_cell in Q. rewrite !Nat.eqb_refl in Q. cbn [fst snd andb] in Q.
      rewrite wrap_in_w in Q; [exact (f_equal fst Q)|done|]. pose proof (Hin r c Hr Hc). unfold in_w in *. lia. }
    rewrite Ecell.
    destruct (Z.eqb_spec (nm_cell s.1 r c + 1) 0) as [E|E].
    + destruct (bupd_flip (m', s.2) Hg r c) as (p' & E2 & U2); [cbn; lia|cbn; lia|]. cbn [fst snd] in E2. rewrite E2. cbn [obind]. cbn [fst snd] in U2.
      eexists. split; [done|]. eapply bupd_ext; [eapply bupd_trans; [exact U|exact U2]| |done].
      intros r' c' v Hr' Hc' Hv Ev. unfold at_cell. destruct (Nat.eqb_spec r' r) as [->|]; [|done]. destruct (Nat.eqb_spec c' c) as [->|]; [|done].
      subst v. unfold b3s, jv. cbn [fst snd andb orb]. rewrite (proj2 (Z.leb_gt _ _)) by lia. rewrite (proj2 (Z.eqb_eq _ _)) by done.
      rewrite wrap_in_w; [done|done|]. pose proof (Hin r c Hr Hc). unfold in_w in *. lia.
    + cbn [obind]. eexists. split; [done|]. eapply bupd_ext; [exact U| |done].
      intros r' c' v Hr' Hc' Hv Ev. unfold at_cell. destruct (Nat.eqb_spec r' r) as [->|]; [|done]. destruct (Nat.eqb_spec c' c) as [->|]; [|done].
      subst v. unfold b3s, jv. cbn [fst snd andb orb]. rewrite (proj2 (Z.leb_gt _ _)) by lia. rewrite (proj2 (Z.eqb_neq _ _)) by done.
      rewrite wrap_in_w; [done|done|]. pose proof (Hin r c Hr Hc). unfold in_w in *. lia.
Qed.
Lemma bw_block3__spec nf j X s :
  bgood s -> nm_cols s.1 = nf -> (2 * j + 1 < nm_rows s.1)%nat -> bits_ok nf X ->
  exists s', bw_block3_ nf j X s = Ret s' /\
    bupd (on_clause j (fun c => b3s (bv_bit 64 X c)) (fun c => b3s (negb (bv_bit 64 X c)))) s s'.
Proof.
  intros Hs Hc Hj HX. unfold bw_block3_.
  apply bupd_loop; auto. intros i [m p] Hi Hg Hsame.
  pose proof Hsame as [(Ew & Er & Ec) _]. simpl in Ew, Er, Ec.
  rewrite (bits_get nf X i) by done. cbn [obind]. destruct (bv_bit 64 X i) eqn:Ex; cbn [negb].
  - destruct (bw_inc_excluded_spec (2 * j + 1) i (m, p)) as (s2 & E & U); [done|cbn; lia|cbn; lia|]. cbn [fst snd] in E. rewrite E.
    exists s2. split; [done|]. eapply bupd_ext; [exact U| |done]. intros r c v _ _ _ _. unfold at_cell, on_clause.
    destruct (Nat.eqb_spec c i) as [->|]; [|by rewrite andb_false_r]. rewrite andb_true_r, Ex. cbn [negb].
    destruct (Nat.eqb_spec r (2 * j)) as [->|]; [|done]. rewrite (proj2 (Nat.eqb_neq (2 * j) (2 * j + 1))) by lia. done.
  - rewrite Nat.add_0_r.
    destruct (bw_inc_excluded_spec (2 * j) i (m, p)) as (s2 & E & U); [done|cbn; lia|cbn; lia|]. cbn [fst snd] in E. rewrite E.
    exists s2. split; [done|]. eapply bupd_ext; [exact U| |done]. intros r c v _ _ _ _. unfold at_cell, on_clause.
    destruct (Nat.eqb_spec c i) as [->|]; [|by rewrite andb_false_r]. rewrite andb_true_r, Ex. cbn [negb].
    destruct (Nat.eqb_spec r (2 * j)) as [->|]; [done|]. by destruct (Nat.eqb r (2 * j + 1)).
Qed.
