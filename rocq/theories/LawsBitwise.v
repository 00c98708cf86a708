(** * The bitwise algorithm satisfies the laws: structurally for every number of states, fully for at least two. *)
From Verif Require Export LawsClassic.
Local Open Scope Z_scope.

(** ** The padding check *)
Lemma bits_pad_spec X : bits_phys X ->
  exists b, bitwise_pad X = Ret b /\ (b = true <-> forall q, (bv_len X <= q)%nat -> bv_bit 64 X q = false).
Proof.
  intros [Hl Hok]. unfold bitwise_pad, bv_capacity_blocks. rewrite Hl.
  pose proof (blocks_for_bits 64 (bv_len X) ltac:(lia)) as Hge. pose proof (blocks_for_tight 64 (bv_len X) ltac:(lia)) as Hlt.
  destruct (Z.eqb_spec (Z.of_nat (blocks_for 64 (bv_len X)) * 64 - Z.of_nat (bv_len X)) 0) as [E|E]; cbn [negb].
  - exists true. split; [done|]. split; [|done]. intros _ q Hq. unfold bv_bit.
    rewrite lookup_ge_None_2; [done|]. rewrite Hl.
    apply Nat.div_le_lower_bound; lia.
  - set (pad := Z.of_nat (blocks_for 64 (bv_len X)) * 64 - Z.of_nat (bv_len X)) in *.
    assert (0 < pad < 64) as Hpad by (unfold pad in *; lia).
    cbv zeta. rewrite (proj2 (Z.ltb_ge (64 - pad) 0)) by lia. rewrite (proj2 (Z.leb_gt 64 (64 - pad))) by lia. cbn [orb].
    assert (0 < blocks_for 64 (bv_len X))%nat as Hnb by (unfold pad in *; lia).
    rewrite last_lookup, Hl.
    assert (Nat.pred (blocks_for 64 (bv_len X)) < length (bv_blocks X))%nat as Hlast by lia.
    apply lookup_lt_is_Some_2 in Hlast as [b Eb]. rewrite Eb. eexists. split; [done|].
    set (sh := Z.to_N (64 - pad)).
    assert (block_ok 64 b) as Hb by (by eapply Forall_lookup_1 in Hok).
    assert (N.land b (N.ldiff (N.ones 64) (N.ones sh)) = 0%N <->
      forall i, (sh <= i)%N -> N.testbit b i = false) as Hmask.
    { split.
      - intros E0 i Hi. destruct (N.lt_ge_cases i 64) as [Hi'|Hi']; [|apply Hb; lia].
        assert (N.testbit (N.land b (N.ldiff (N.ones 64) (N.ones sh))) i = false) as Ht by (rewrite E0; apply N.bits_0).
        rewrite N.land_spec, N.ldiff_spec, N.ones_spec_low, N.ones_spec_high in Ht by lia. by rewrite andb_true_r in Ht.
      - intros H. apply N.bits_inj_0. intros i. rewrite N.land_spec, N.ldiff_spec.
        destruct (N.lt_ge_cases i sh) as [Hi|Hi].
        + rewrite (N.ones_spec_low sh) by done. simpl. by rewrite !andb_false_r.
        + rewrite H by done. done. }
    rewrite N.eqb_eq, Hmask. split.
    + intros H q Hq. unfold bv_bit. destruct (bv_blocks X !! (q / 64)%nat) as [b'|] eqn:E'; [|done].
      assert (q / 64 < blocks_for 64 (bv_len X))%nat as Hq' by (apply lookup_lt_Some in E'; lia).
      pose proof (Nat.div_mod q 64 ltac:(lia)) as Ed. pose proof (Nat.mod_upper_bound q 64 ltac:(lia)).
      assert (q / 64 = Nat.pred (blocks_for 64 (bv_len X)))%nat as Eq by nia.
      rewrite Eq in E'. rewrite Eb in E'. injection E' as <-. apply H. unfold sh. rewrite Eq in Ed. unfold pad. lia.
    + intros H i Hi. destruct (N.lt_ge_cases i 64) as [Hi'|Hi']; [|apply Hb; lia].
      specialize (H (Nat.pred (blocks_for 64 (bv_len X)) * 64 + N.to_nat i)%nat).
      unfold bv_bit in H. rewrite Nat.div_add_l, Nat.div_small, Nat.add_0_r, Eb in H by lia.
      rewrite Nat.add_comm, Nat.mod_add, Nat.mod_small, N2Nat.id in H by lia. apply H.
      unfold sh, pad in Hi. lia.
Qed.

Section Bitwise.
  Context (R : rnd) (g_ok : eG R -> Prop) (f_ok : eF R -> Prop) (HR : rnd_ok R g_ok f_ok).

  Definition bw_view : aview (Algo.bitwise R) := {|
    v_phys := bits_phys : a_smp (Algo.bitwise R) -> Prop;
    v_ok := bits_ok : nat -> a_smp (Algo.bitwise R) -> Prop;
    v_x := bv_bit 64 : a_smp (Algo.bitwise R) -> nat -> bool;
    v_inc _ p := pol_inc p;
    v_incn _ p := pol_incn p;
    v_cell m p r c := jv (m, p) r c;
    v_fits w rows cols := nm_fits w rows cols /\ bm_fits 64 rows cols |}.

  (** structure: shapes, storage, padding bits clear *)
  Definition bw_struct (w : Z) (n nf : nat) (m : nmatrix) (p : a_pol (Algo.bitwise R)) : Prop :=
    bgood (m, p) /\ nm_w m = w /\ nm_rows m = (2 * n)%nat /\ nm_cols m = nf /\ bm_clear_padding 64 p /\
    bm_row_blocks p = Z.to_nat (row_blocks 64 nf).
  (** a stored automaton is in range and its polarity bit is its sign *)
  Definition cell_ok (N : Z) (v : Z * bool) : Prop := - N <= v.1 <= N - 1 /\ v.2 = (0 <=? v.1).
  Definition bw_full (w N : Z) (n nf : nat) (m : nmatrix) (p : a_pol (Algo.bitwise R)) : Prop :=
    bw_struct w n nf m p /\ forall r c, (r < 2 * n)%nat -> (c < nf)%nat -> cell_ok N (jv (m, p) r c).

  (** Type I, silent clause: [l1], [l2] are the literals drawn, with repetitions *)
  Definition bw_E1n (N : Z) (nf : nat) (ct : coin_tosser) (x : a_smp (Algo.bitwise R)) (j : nat) (s s' : amp (Algo.bitwise R)) : Prop :=
    exists h l1 l2, hits_of ct h /\ length l1 = Z.to_nat (wrap_s 32 h) /\ length l2 = Z.to_nat (wrap_s 32 h) /\
      Forall (fun k => (k < nf)%nat) l1 /\ Forall (fun k => (k < nf)%nat) l2 /\
      forall k, (k < nf)%nat ->
        nm_cell s'.1 (2 * j) k = Nat.iter (occ l1 k) (down N) (nm_cell s.1 (2 * j) k) /\
        nm_cell s'.1 (2 * j + 1) k = Nat.iter (occ l2 k) (down N) (nm_cell s.1 (2 * j + 1) k).
  Definition bw_E1p (N : Z) (boost : bool) (nf : nat) (ct : coin_tosser) (x : a_smp (Algo.bitwise R)) (j : nat) (s s' : amp (Algo.bitwise R)) : Prop :=
    exists t1 t2, zo_list nf t1 /\ zo_list nf t2 /\
      hits_of ct (Z.of_nat (count_ones t1)) /\ hits_of ct (Z.of_nat (count_ones t2)) /\
      forall k, (k < nf)%nat ->
        nm_cell s'.1 (2 * j) k = type1_fired boost N (bv_bit 64 x k) (toss t1 k) (nm_cell s.1 (2 * j) k) /\
        nm_cell s'.1 (2 * j + 1) k = type1_fired boost N (negb (bv_bit 64 x k)) (toss t2 k) (nm_cell s.1 (2 * j + 1) k).
  Definition bw_E2 (nf : nat) (x : a_smp (Algo.bitwise R)) (j : nat) (s s' : amp (Algo.bitwise R)) : Prop :=
    forall k, (k < nf)%nat ->
      nm_cell s'.1 (2 * j) k = type2 (bv_bit 64 x k) (nm_cell s.1 (2 * j) k) /\
      nm_cell s'.1 (2 * j + 1) k = type2 (negb (bv_bit 64 x k)) (nm_cell s.1 (2 * j + 1) k).
  Definition bw_E2_any (nf : nat) (x : a_smp (Algo.bitwise R)) (j : nat) (s s' : amp (Algo.bitwise R)) : Prop := True.

  Lemma bw_struct_bupd w n nf j FP FN s s' :
    bw_struct w n nf s.1 s.2 -> bupd (on_clause j FP FN) s s' ->
    bw_struct w n nf s'.1 s'.2 /\ only_clause bw_view n nf j s s'.
  Proof.
    destruct s as [m p], s' as [m' p']. cbn [fst snd].
    intros (Hg & Ew & Er & Ec & Hpad & Hrb) (Hg' & [(Ew' & Er' & Ec') (Eb1 & Eb2 & Eb3)] & Hcell & Hp'). cbn [fst snd] in *. split.
    - split; [done|]. split; [congruence|]. split; [congruence|]. split; [congruence|].
      split; [|congruence]. intros r c Hr Hc. destruct Hg as (_ & _ & E1 & E2). cbn [fst snd] in *. rewrite Hp' by lia. apply Hpad; lia.
    - intros r c Hr Hc H1 H2. cbn [fst snd]. change (v_cell bw_view) with (fun m p r c => jv (m, p) r c). cbv beta.
      rewrite Hcell by lia. by rewrite on_clause_other.
  Qed.
  Lemma bw_full_bupd w N n nf j FP FN s s' :
    bw_full w N n nf s.1 s.2 -> bupd (on_clause j FP FN) s s' ->
    (forall k v, cell_ok N v -> in_w w v.1 -> cell_ok N (FP k v)) ->
    (forall k v, cell_ok N v -> in_w w v.1 -> cell_ok N (FN k v)) ->
    bw_full w N n nf s'.1 s'.2 /\ only_clause bw_view n nf j s s'.
  Proof.
    intros [Hs Hc] Hup HP HN. destruct (bw_struct_bupd _ _ _ _ _ _ _ _ Hs Hup) as [Hs' Hfr]. split; [|done].
    split; [done|]. intros r c Hr Hcc. destruct Hup as (_ & _ & Hcell & _). destruct Hs as (Hg & Ew & Er & Ec & _).
    destruct s as [m p], s' as [m' p']. cbn [fst snd] in *. rewrite Hcell by lia.
    specialize (Hc r c Hr Hcc). assert (in_w w (jv (m, p) r c).1) as Hw.
    { rewrite <- Ew. destruct Hg as [(_ & _ & Hg) _]. apply Hg; simpl; lia. }
    unfold on_clause. repeat case_match; auto.
  Qed.

  Lemma decf_ok N v : 1 <= N -> cell_ok N v -> cell_ok N (decf N v).
  Proof.
    destruct v as [st b]. intros HN [Hr Hb]. unfold cell_ok, decf in *. cbn [fst snd] in *.
    split; [by apply down_range|]. unfold down. rewrite Hb.
    destruct (Z.eqb_spec st 0), (Z.ltb_spec (- N) st), (Z.leb_spec 0 st); cbn [negb]; try lia;
      try (destruct (Z.leb_spec 0 (st - 1)); try lia; done); done.
  Qed.
  Lemma iter_decf_ok N n v : 1 <= N -> cell_ok N v -> cell_ok N (Nat.iter n (decf N) v).
  Proof. intros HN Hv. induction n as [|n IH]; [done|]. simpl. by apply decf_ok. Qed.
  Lemma iter_decf_fst N n v : (Nat.iter n (decf N) v).1 = Nat.iter n (down N) v.1.
  Proof. induction n as [|n IH]; [done|]. simpl. by rewrite IH. Qed.
  Lemma incf_any_ok N v : 2 <= N -> cell_ok N v -> cell_ok N (incf_any N v).
  Proof.
    destruct v as [st b]. intros HN [Hr Hb]. unfold cell_ok, incf_any in *. cbn [fst snd] in *.
    split; [apply up_range; lia|]. unfold up. rewrite Hb.
    destruct (Z.ltb_spec st (N - 1)).
    - destruct (Z.eqb_spec (st + 1) 0), (Z.leb_spec 0 st), (Z.leb_spec 0 (st + 1)); try lia; done.
    - destruct (Z.eqb_spec st 0), (Z.leb_spec 0 st); try lia; done.
  Qed.
  Lemma incf_ok N v : 1 <= N -> cell_ok N v -> cell_ok N (incf N v).
  Proof.
    destruct v as [st b]. intros HN [Hr Hb]. unfold cell_ok, incf in *. cbn [fst snd] in *. rewrite Hb.
    destruct (Z.ltb_spec st (N - 1)); cbn [fst snd]; [|split; [lia|done]].
    split; [lia|]. destruct (Z.eqb_spec (st + 1) 0), (Z.leb_spec 0 st), (Z.leb_spec 0 (st + 1)); try lia; done.
  Qed.
  Lemma incf_fst N v : (incf N v).1 = up N v.1.
  Proof. unfold incf, up. by destruct (_ <? _). Qed.
  Lemma b2_pos_ok boost N x t v : 2 <= N -> cell_ok N v -> cell_ok N (b2_pos boost N x t v).
  Proof.
    intros. unfold b2_pos. destruct x, (boost || negb t), t; auto using incf_any_ok; apply decf_ok; auto; lia.
  Qed.
  Lemma b2_neg_ok boost N x t v : 1 <= N -> cell_ok N v -> cell_ok N (b2_neg boost N x t v).
  Proof. intros. unfold b2_neg. destruct x, (boost || negb t), t; auto using incf_ok, decf_ok. Qed.
  Lemma b2_pos_fst boost N x t v : (b2_pos boost N x t v).1 = type1_fired boost N x t v.1.
  Proof. unfold b2_pos, type1_fired. by destruct x, (boost || negb t), t. Qed.
  Lemma b2_neg_fst boost N x t v : (b2_neg boost N x t v).1 = type1_fired boost N (negb x) t v.1.
  Proof. unfold b2_neg, type1_fired. destruct x, (boost || negb t), t; try done; apply incf_fst. Qed.
  Lemma b3f_full w N lit v : 0 < w -> 1 <= N -> cell_ok N v -> in_w w v.1 ->
    cell_ok N (b3f w lit v) /\ (b3f w lit v).1 = type2 lit v.1.
  Proof.
    destruct v as [st b]. intros Hw HN [Hr Hb] Hin. unfold cell_ok, b3f, type2, in_w in *. cbn [fst snd] in *. rewrite Hb.
    destruct lit; cbn [negb andb b2z].
    - rewrite Z.add_0_r, wrap_in_w by done. rewrite andb_false_r, xorb_false_r. done.
    - destruct (Z.leb_spec 0 st) as [Hle|Hlt]; cbn [negb b2z].
      + rewrite Z.add_0_r, wrap_in_w by done. rewrite andb_false_r, (proj2 (Z.ltb_ge st 0)) by lia.
        split; [split; [lia|]|done]. simpl. by rewrite (proj2 (Z.leb_le 0 st)).
      + assert (in_w w (st + 1)) as Hin' by (unfold in_w; pose proof (Z.pow_pos_nonneg 2 (w - 1)); lia).
        rewrite (wrap_in_w w (st + 1) Hw Hin'). rewrite (proj2 (Z.ltb_lt st 0)) by lia.
        rewrite andb_true_r, xorb_false_l. split; [split; [lia|]|done].
        destruct (Z.eqb_spec (st + 1) 0), (Z.leb_spec 0 (st + 1)); try lia; done.
  Qed.

  Lemma bw_init_wf w N n nf (U V : Prop) g :
    nm_wf (nm_new w (2 * n) nf) -> bm_wf 64 (bm_new 64 (2 * n) nf) -> (w = 8 \/ w = 16 \/ w = 32) -> 1 <= N -> g_ok g ->
    wp U V (bitwise_init R w (2 * n) nf g) (fun '(m, p, g') => bw_full w N n nf m p /\ g_ok g').
  Proof.
    intros Hwf Hbwf Hw HN Hg. unfold bitwise_init. cbv zeta. cbn [nm_new nm_rows nm_cols]. fold (nm_new w (2 * n) nf).
    set (m0 := nm_new w (2 * n) nf) in *. set (p0 := bm_new 64 (2 * n) nf) in *.
    set (P := fun (done_ : nat -> nat -> Prop) (m : nmatrix) (p : bmatrix) (g : eG R) =>
      nm_wf m /\ nm_same_shape m0 m /\ g_ok g /\ bm_wf 64 p /\ bm_same_shape p0 p /\ bm_clear_padding 64 p /\
      (forall r c, (c < nf)%nat -> nm_cell m r c = -1 \/ nm_cell m r c = 0) /\
      (forall r c, (r < 2 * n)%nat -> (c < nf)%nat -> done_ r c -> bm_bit 64 p r c = (0 <=? nm_cell m r c))).
    apply wp_bind. eapply wp_mono; [apply (wp_ofor (fun i '(m, p, g) => P (fun r c => (r < i)%nat) m p g))|].
    - split; [done|]. split; [done|]. split; [done|]. split; [done|]. split; [done|]. split; [|split].
      + intros r c _ _. unfold bm_bit, p0, bm_new; simpl.
        destruct (replicate _ _ !! _) eqn:E; [|done]. apply lookup_replicate in E as [-> _]. apply N.bits_0.
      + intros r c _. right. unfold nm_cell, m0, nm_new; simpl.
        destruct (replicate _ _ !! _) eqn:E; [|done]. by apply lookup_replicate in E as [-> _].
      + intros; lia.
    - intros i [[m1 p1] g1] Hi HP1.
      assert (nm_cols m1 = nf) as Ecm by (by destruct HP1 as (_ & (_ & _ & Ecm) & _)). rewrite Ecm.
      eapply wp_mono; [apply (wp_ofor (fun k '(m, p, g) => P (fun r c => (r < i)%nat \/ r = i /\ (c < k)%nat) m p g))|].
      + destruct HP1 as (?&?&?&?&?&?&?&HS). do 7 (split; [done|]). intros r c Hr Hc [?|[? ?]]; [auto|lia].
      + intros k [[m2 p2] g2] Hk (Hwf2 & Hs2 & Hg2 & Hb2 & Hbs2 & Hpad2 & Hc2 & Hsy2).
        pose proof (igen_m1_0_spec R g_ok f_ok HR w g2 Hw Hg2) as Hv.
        destruct (igen_m1_0 R g2) as [v g3]. destruct Hv as [Hg3 Hv].
        pose proof Hs2 as (Ew & Er & Ec). pose proof Hbs2 as (Eb1 & Eb2 & Eb3). cbn [m0 p0 nm_new bm_new nm_w nm_rows nm_cols bm_rows bm_cols] in *.
        destruct (nm_set_spec m2 i k v Hwf2) as (m3 & E3 & Hwf3 & Hs3 & Hc3); [lia|lia|].
        rewrite E3. cbn [obind]. pose proof Hs3 as (Ew3 & Er3 & Ec3).
        rewrite nm_get_spec by (auto; lia). cbn [obind]. rewrite Hc3 by lia. rewrite !Nat.eqb_refl. cbn [andb].
        rewrite Ew. set (st := wrap_s w v) in *.
        assert (k < bm_row_blocks p2 * 64)%nat as Hkb by (destruct Hb2; lia).
        assert (exists p3, (if 0 <=? st then bm_set 64 p2 i k else bm_clear 64 p2 i k) = Ret p3 /\ bm_wf 64 p3 /\
          bm_same_shape p2 p3 /\ forall r' c', (c' < bm_row_blocks p2 * 64)%nat ->
            bm_bit 64 p3 r' c' = if Nat.eqb r' i && Nat.eqb c' k then 0 <=? st else bm_bit 64 p2 r' c')
          as (p3 & -> & Hb3 & Hbs3 & Hbit3).
        { destruct (0 <=? st); [apply bm_set_spec|apply bm_clear_spec]; auto; lia. }
        cbn [obind wp]. pose proof Hbs3 as (Eb1' & Eb2' & Eb3'). cbn [bm_row_blocks] in *.
        split; [done|]. split; [split_and!; cbn [m0 nm_new nm_w nm_rows nm_cols]; congruence|]. split; [done|].
        split; [done|]. split; [split_and!; [rewrite Eb1'; exact Eb1|rewrite Eb2'; exact Eb2|rewrite Eb3'; exact Eb3]|]. split; [|split].
        * intros r c Hr Hc. rewrite Hbit3 by lia. rewrite (proj2 (Nat.eqb_neq c k)) by lia. rewrite andb_false_r.
          apply Hpad2; lia.
        * intros r c Hc. rewrite Hc3 by lia. destruct (_ && _); [|by apply Hc2]. rewrite Ew. done.
        * intros r c Hr Hc Hdone. rewrite Hbit3 by (destruct Hb2; lia). rewrite Hc3 by lia.
          destruct (Nat.eqb_spec r i) as [->|], (Nat.eqb_spec c k) as [->|]; cbn [andb].
          -- by rewrite Ew.
          -- apply Hsy2; auto. lia.
          -- apply Hsy2; auto. lia.
          -- apply Hsy2; auto. lia.
      + intros [[m2 p2] g2] (?&?&?&?&?&?&?&HS). do 7 (split; [done|]). intros r c Hr Hc Hd. apply HS; auto. lia.
    - intros [[m p] g1] (Hwf1 & (Ew & Er & Ec) & Hg1 & Hb1 & (Eb1 & Eb2 & Eb3) & Hpad1 & Hc1 & Hsy).
      cbn [wp]. cbn [m0 p0 nm_new bm_new nm_w nm_rows nm_cols bm_rows bm_cols] in *. split; [|done].
      assert (forall z, (z = -1 \/ z = 0) -> in_w w z /\ - N <= z <= N - 1) as HB.
      { intros z Hz. unfold in_w. destruct Hw as [->|[->| ->]]; simpl; lia. }
      split.
      + split; [|split; [done|]; split; [done|]; split; [done|]; split; [done|exact Eb3]]. split; [|split; [done|]; split; cbn [fst snd]; congruence].
        split; [done|]. cbn [fst]. split; [rewrite Ew; destruct Hw as [->|[->| ->]]; lia|].
        intros r c Hr Hc. rewrite Ew. apply HB. apply Hc1. lia.
      + intros r c Hr Hc. unfold cell_ok, jv. cbn [fst snd]. split; [apply HB; by apply Hc1|].
        apply Hsy; auto.
  Qed.

  (** the initialisation has no unbounded loop *)
  Lemma bw_init_fuel w rows cols g : bitwise_init R w rows cols g <> OutOfFuel.
  Proof.
    unfold bitwise_init. cbv zeta. intros E.
    match type of E with obind ?o _ = _ => assert (wp True False o (fun _ => True)) as Hwp end.
    { eapply wp_mono; [apply (wp_ofor (fun _ _ => True)); [done|]|done]. intros i [[m1 p1] g1] _ _.
      eapply wp_mono; [apply (wp_ofor (fun _ _ => True)); [done|]|done]. intros k [[m2 p2] g2] _ _.
      destruct (igen_m1_0 R g2). apply wp_bind.
      destruct (nm_set m2 i k z) as [m3| | |] eqn:E3; try done; [|unfold nm_set, vset in E3; by case_decide].
      cbn [wp]. apply wp_bind. unfold nm_get, vget. destruct (_ !! _); [|done]. cbn [wp]. apply wp_bind.
      unfold bm_set, bm_clear, bm_block, bm_set_block, vget, vset.
      destruct (0 <=? _), (_ !! _); cbn [obind wp]; try done; case_decide; done. }
    match type of E with obind ?o _ = _ => destruct o as [[[? ?] ?]| | |]; simpl in *; done end.
  Qed.

  Lemma bw_init (w N : Z) (U V : Prop) n nf g :
    (w = 8 \/ w = 16 \/ w = 32) -> 1 <= N -> g_ok g -> (0 < n)%nat -> (v_fits bw_view w (2 * n) nf \/ U) ->
    wp U V (bitwise_init R w (2 * n) nf g) (fun '(m, p, g') => bw_full w N n nf m p /\ g_ok g').
  Proof.
    intros Hw HN Hg Hn Hf.
    destruct (decide (nm_sized (nm_new w (2 * n) nf))) as [Hwf|Hnwf];
      [destruct (decide ((bm_cols (bm_new 64 (2 * n) nf) <= bm_row_blocks (bm_new 64 (2 * n) nf) * 64)%nat /\
        length (bm_data (bm_new 64 (2 * n) nf)) = (bm_rows (bm_new 64 (2 * n) nf) * bm_row_blocks (bm_new 64 (2 * n) nf))%nat))
        as [[Hb1 Hb2]|Hnb]|].
    - apply bw_init_wf; auto; [split; [done|]; split; [intros r c _; apply nm_new_cell|unfold nm_alloc, nm_new; cbn; by rewrite replicate_length]|]. split; [done|]. split; [done|]. apply Forall_replicate_block.
    - destruct (bitwise_init R w (2 * n) nf g) as [[[m p] g']|e|k|] eqn:E; cbn [wp].
      + exfalso. apply Hnb. eapply bitwise_init_written in E as [_ (? & ? & _)]; [done|lia|done].
      + destruct Hf as [[_ Hf]|]; [|done]. exfalso. apply Hnb. destruct (bm_new_wf _ _ _ Hf) as ((? & ? & _) & _). done.
      + destruct Hf as [[_ Hf]|]; [|done]. exfalso. apply Hnb. destruct (bm_new_wf _ _ _ Hf) as ((? & ? & _) & _). done.
      + exfalso. by eapply bw_init_fuel.
    - destruct (bitwise_init R w (2 * n) nf g) as [[[m p] g']|e|k|] eqn:E; cbn [wp].
      + exfalso. apply Hnwf. eapply bitwise_init_written in E as [[? _] _]; [done|lia|done].
      + destruct Hf as [[Hf _]|]; [|done]. exfalso. apply Hnwf. by apply nm_new_wf.
      + destruct Hf as [[Hf _]|]; [|done]. exfalso. apply Hnwf. by apply nm_new_wf.
      + exfalso. by eapply bw_init_fuel.
  Qed.

  (** common parts of the two instances *)
  Lemma bw_accept x : bits_phys x ->
    (a_01 (Algo.bitwise R) x = true /\ bitwise_pad x = Ret true) <-> bits_ok (bv_len x) x.
  Proof.
    intros Hp. destruct (bits_pad_spec x Hp) as (b & E & Hb). split.
    - intros [_ E']. rewrite E in E'. injection E' as ->. split; [done|]. split; [done|]. by apply Hb.
    - intros (_ & _ & H). split; [done|]. rewrite E. f_equal. by apply Hb.
  Qed.
  Lemma bw_clauses w n nf m p x j B : bw_struct w n nf m p -> bits_ok nf x -> (j < n)%nat -> (0 < B)%nat ->
    bw_clause B x p j = Ret (b2z (clause_true nf (pol_inc p j) (pol_incn p j) (bv_bit 64 x))) /\
    bwp_clause B x p j = Ret (b2z (clause_true nf (pol_inc p j) (pol_incn p j) (bv_bit 64 x)
                                   && clause_nonempty nf (pol_inc p j) (pol_incn p j))).
  Proof.
    intros ((Hg & Hb & E1 & E2) & Ew & Er & Ec & Hpad & _) (El & Hph & _) Hj HB. cbn [fst snd] in *.
    rewrite (bw_clause_spec B x p j); [|done|done|done|congruence|lia|done].
    rewrite (bwp_clause_spec B x p j); [|done|done|done|congruence|lia|done]. by rewrite El.
  Qed.

  Section Step.
    Context (U V : Prop) (w N : Z) (Hw : w = 8 \/ w = 16 \/ w = 32) (HN : 1 <= N <= 2 ^ (w - 1)).
    Context (n nf : nat) (m : nmatrix) (p : bmatrix) (x : bit_vector) (j : nat).
    Context (HI : bw_struct w n nf m p) (Hx : bits_ok nf x) (Hj : (j < n)%nat).

    Lemma bw_t1n_spec ct g : ct_ok R g_ok U V nf ct -> g_ok g ->
      wp U V (a_type1_neg (Algo.bitwise R) N x j (m, p) ct g) (fun '(m', p', ct', g') => ct' = ct /\ g_ok g' /\
        exists h l1 l2, hits_of ct h /\ length l1 = Z.to_nat (wrap_s 32 h) /\ length l2 = Z.to_nat (wrap_s 32 h) /\
        Forall (fun k => (k < nf)%nat) l1 /\ Forall (fun k => (k < nf)%nat) l2 /\ bupd (decs N j l1 l2) (m, p) (m', p')).
    Proof.
      intros Hct Hg. simpl. pose proof (estimate_spec R g_ok f_ok HR ct g Hg) as He.
      destruct (ct_estimate_hits R ct g) as [h g1]. destruct He as (Hg1 & Hh & Hof).
      pose proof HI as (Hgood & Ew & Er & Ec & Hpad & _). destruct Hx as (El & _). rewrite El.
      apply wp_bind. eapply wp_mono; [apply (block1_sparse_spec R g_ok f_ok HR)|].
      - done. - exact Ec. - cbn [fst]. lia. - cbn [fst]. rewrite Ew. lia. - done.
      - destruct nf as [|nf'] eqn:Enf; [|left; lia]. destruct Hct as (_ & [Hz|HU] & _); [|auto].
        destruct (Hz eq_refl) as [F0 T0]. right; left. destruct Hof as [->|[-> ?]]; [|lia]. rewrite F0. done.
      - intros [[m' p'] g'] (Hg' & l1 & l2 & H1 & H2 & H3 & H4 & H5). cbn. split; [done|]. split; [done|].
        exists h, l1, l2. done.
    Qed.
    Lemma bw_t1p_spec boost ct g : ct_ok R g_ok U V nf ct -> g_ok g ->
      wp U V (a_type1_pos (Algo.bitwise R) boost N x j (m, p) ct g) (fun '(m', p', ct', g') =>
        g_ok g' /\ ct_ok R g_ok U V nf ct' /\ tossed nf ct ct' /\
        bupd (on_clause j (fun k => b2_pos boost N (bv_bit 64 x k) (toss (ct_c1 ct') k))
                          (fun k => b2_neg boost N (bv_bit 64 x k) (toss (ct_c2 ct') k))) (m, p) (m', p')).
    Proof.
      intros Hct Hg. simpl. apply wp_bind. eapply wp_mono; [by eapply tosses12_spec|].
      intros [ct' g'] (Hg' & Hok & Htos). pose proof Htos as (Hsr & Z1 & Z2 & O1 & O2).
      pose proof HI as (Hgood & Ew & Er & Ec & Hpad & _).
      destruct (bw_block2_spec boost N j nf x (ct_c1 ct') (ct_c2 ct') (m, p)) as ([m' p'] & -> & Hup);
        [done|done|cbn [fst]; lia|done|done|done|cbn [fst]; rewrite Ew; lia|].
      cbn. done.
    Qed.
    Lemma bw_t2_spec :
      wp U V (a_type2 (Algo.bitwise R) x j (m, p)) (fun '(m', p') =>
        bupd (on_clause j (fun c => b3f w (bv_bit 64 x c)) (fun c => b3f w (negb (bv_bit 64 x c)))) (m, p) (m', p')).
    Proof.
      pose proof HI as (Hgood & Ew & Er & Ec & Hpad & _). simpl.
      destruct (bw_block3_spec j nf x (m, p)) as ([m' p'] & -> & Hup); [done|cbn [fst]; lia|done|done|].
      cbn [fst] in Hup. rewrite Ew in Hup. done.
    Qed.
  End Step.

  Lemma jv_fst s r c : (jv s r c).1 = nm_cell s.1 r c.
  Proof. done. Qed.

  Lemma bw_E1n_of N n nf ct x j h l1 l2 m p m' p' : (2 * n = nm_rows m)%nat -> nf = nm_cols m -> (j < n)%nat ->
    hits_of ct h -> length l1 = Z.to_nat (wrap_s 32 h) -> length l2 = Z.to_nat (wrap_s 32 h) ->
    Forall (fun k => (k < nf)%nat) l1 -> Forall (fun k => (k < nf)%nat) l2 -> bupd (decs N j l1 l2) (m, p) (m', p') ->
    bw_E1n N nf ct x j (m, p) (m', p').
  Proof.
    intros En Ef Hj H1 H2 H3 H4 H5 (_ & _ & Hcell & _). exists h, l1, l2. do 5 (split; [done|]). intros k Hk.
    cbn [fst] in *. rewrite <- !(jv_fst (m', p')), <- !(jv_fst (m, p)), !Hcell by lia. unfold decs.
    rewrite on_clause_pos, on_clause_neg, !iter_decf_fst. done.
  Qed.
  Lemma bw_E1p_of N boost n nf ct ct' x j m p m' p' : (2 * n = nm_rows m)%nat -> nf = nm_cols m -> (j < n)%nat ->
    tossed nf ct ct' ->
    bupd (on_clause j (fun k => b2_pos boost N (bv_bit 64 x k) (toss (ct_c1 ct') k))
                      (fun k => b2_neg boost N (bv_bit 64 x k) (toss (ct_c2 ct') k))) (m, p) (m', p') ->
    bw_E1p N boost nf ct x j (m, p) (m', p').
  Proof.
    intros En Ef Hj (_ & Z1 & Z2 & O1 & O2) (_ & _ & Hcell & _). exists (ct_c1 ct'), (ct_c2 ct'). do 4 (split; [done|]).
    intros k Hk. cbn [fst] in *. rewrite <- !(jv_fst (m', p')), <- !(jv_fst (m, p)), !Hcell by lia.
    rewrite on_clause_pos, on_clause_neg, b2_pos_fst, b2_neg_fst. done.
  Qed.

  Lemma same_clause_cells nf j s t : same_clause bw_view nf j s t -> forall k, (k < nf)%nat ->
    nm_cell t.1 (2 * j) k = nm_cell s.1 (2 * j) k /\ nm_cell t.1 (2 * j + 1) k = nm_cell s.1 (2 * j + 1) k.
  Proof.
    intros H k Hk. destruct (H k Hk) as [H1 H2]. change (v_cell bw_view) with (fun m p r c => jv (m, p) r c) in *.
    unfold jv in *. cbn [fst snd] in *. split; congruence.
  Qed.
  Lemma bw_f1n N nf ct ct' x j s s' t t' : same_rate ct ct' -> same_clause bw_view nf j s t -> same_clause bw_view nf j s' t' ->
    bw_E1n N nf ct x j s s' -> bw_E1n N nf ct' x j t t'.
  Proof.
    intros Hr H1 H2 (h & l1 & l2 & Hh & L1 & L2 & F1 & F2 & H). exists h, l1, l2.
    split; [by eapply hits_of_same|]. do 4 (split; [done|]).
    intros k Hk. destruct (same_clause_cells _ _ _ _ H1 k Hk) as [-> ->], (same_clause_cells _ _ _ _ H2 k Hk) as [-> ->].
    by apply H.
  Qed.
  Lemma bw_f1p N boost nf ct ct' x j s s' t t' : same_rate ct ct' -> same_clause bw_view nf j s t -> same_clause bw_view nf j s' t' ->
    bw_E1p N boost nf ct x j s s' -> bw_E1p N boost nf ct' x j t t'.
  Proof.
    intros Hr H1 H2 (t1 & t2 & Z1 & Z2 & O1 & O2 & H).
    exists t1, t2. do 2 (split; [done|]). do 2 (split; [by eapply hits_of_same|]).
    intros k Hk. destruct (same_clause_cells _ _ _ _ H1 k Hk) as [-> ->], (same_clause_cells _ _ _ _ H2 k Hk) as [-> ->].
    by apply H.
  Qed.
  Lemma bw_f2 nf x j s s' t t' : same_clause bw_view nf j s t -> same_clause bw_view nf j s' t' ->
    bw_E2 nf x j s s' -> bw_E2 nf x j t t'.
  Proof.
    intros H1 H2 H k Hk. destruct (same_clause_cells _ _ _ _ H1 k Hk) as [-> ->], (same_clause_cells _ _ _ _ H2 k Hk) as [-> ->].
    by apply H.
  Qed.
  Lemma bw_s1n N x j s ct ct' g : ct_sim ct ct' ->
    orel t1_sim (a_type1_neg (Algo.bitwise R) N x j s ct g) (a_type1_neg (Algo.bitwise R) N x j s ct' g).
  Proof.
    intros Hs. simpl. pose proof Hs as ((E1 & E2 & E3) & _). unfold ct_estimate_hits. rewrite E2, E3.
    destruct (g_next R g) as [r g1]. apply orel_same. intros [mp' g2] _. by split.
  Qed.
  Lemma bw_s1p N boost x j s ct ct' g : ct_sim ct ct' ->
    orel t1_sim (a_type1_pos (Algo.bitwise R) boost N x j s ct g) (a_type1_pos (Algo.bitwise R) boost N x j s ct' g).
  Proof.
    intros Hs. simpl. rewrite (tosses12_sim R ct ct' g Hs).
    apply orel_same. intros [ct1 g1] _. apply orel_same. intros m _. split; [done|]. split; [done|]. apply ct_sim_refl.
  Qed.

  Lemma bitwise_laws_struct (U V : Prop) (w N : Z) :
    (w = 8 \/ w = 16 \/ w = 32) -> 1 <= N <= 2 ^ (w - 1) ->
    laws (Algo.bitwise R) g_ok bw_view U V w N (bw_struct w) (bw_E1n N) (bw_E1p N) bw_E2_any.
  Proof.
    intros Hw HN. constructor.
    - intros nf x [H _]. exact H.
    - intros x Hp. destruct (bits_pad_spec x Hp) as (b & E & _). by exists b.
    - exact bw_accept.
    - intros n nf m p (_ & _ & H & _). exact H.
    - intros n nf g Hg Hn Hf. eapply wp_mono; [apply (bw_init w N); auto; lia|]. by intros [[m p] g'] [[? _] ?].
    - intros n nf m p ws x j B HI Hx Hj HB. by eapply bw_clauses.
    - intros n nf m p ws x j B HI Hx Hj HB. by eapply bw_clauses.
    - intros n nf m p x j ct g HI Hx Hj Hct Hg. pose proof HI as (_ & _ & Er & Ec & _).
      eapply wp_mono; [by eapply bw_t1n_spec|]. intros [[[m' p'] ct'] g'] (-> & Hg' & h & l1 & l2 & H1 & H2 & H3 & H4 & H5 & Hup).
      destruct (bw_struct_bupd _ _ _ _ _ _ (m, p) (m', p') HI Hup) as [HI' Hfr].
      split; [done|]. split; [done|]. split; [by apply (bw_E1n_of N n nf ct x j h l1 l2)|]. done.
    - intros boost n nf m p x j ct g HI Hx Hj Hct Hg. pose proof HI as (_ & _ & Er & Ec & _).
      eapply wp_mono; [by eapply bw_t1p_spec|]. intros [[[m' p'] ct'] g'] (Hg' & Hok & Htos & Hup).
      destruct (bw_struct_bupd _ _ _ _ _ _ (m, p) (m', p') HI Hup) as [HI' Hfr].
      split; [done|]. split; [done|]. split; [by apply (bw_E1p_of N boost n nf ct ct' x j)|]. split; [apply Htos|done].
    - intros n nf m p x j HI Hx Hj.
      eapply wp_mono; [by eapply bw_t2_spec|]. intros [m' p'] Hup.
      destruct (bw_struct_bupd _ _ _ _ _ _ (m, p) (m', p') HI Hup) as [HI' Hfr]. done.
    - exact (bw_f1n N).
    - exact (bw_f1p N).
    - done.
    - exact (bw_s1n N).
    - exact (bw_s1p N).
  Qed.

  Lemma bitwise_laws (U V : Prop) (w N : Z) :
    (w = 8 \/ w = 16 \/ w = 32) -> 2 <= N <= 2 ^ (w - 1) ->
    laws (Algo.bitwise R) g_ok bw_view U V w N (bw_full w N) (bw_E1n N) (bw_E1p N) bw_E2.
  Proof.
    intros Hw HN. assert (1 <= N <= 2 ^ (w - 1)) as HN1 by lia.
    assert (0 < w) as Hw0 by lia. constructor.
    - intros nf x [H _]. exact H.
    - intros x Hp. destruct (bits_pad_spec x Hp) as (b & E & _). by exists b.
    - exact bw_accept.
    - intros n nf m p [(_ & _ & H & _) _]. exact H.
    - intros n nf g Hg Hn Hf. eapply wp_mono; [apply (bw_init w N); auto; lia|]. by intros [[m p] g'] [? ?].
    - intros n nf m p ws x j B [HI _] Hx Hj HB. by eapply bw_clauses.
    - intros n nf m p ws x j B [HI _] Hx Hj HB. by eapply bw_clauses.
    - intros n nf m p x j ct g [HI HF] Hx Hj Hct Hg. pose proof HI as (_ & _ & Er & Ec & _).
      eapply wp_mono; [by eapply bw_t1n_spec|]. intros [[[m' p'] ct'] g'] (-> & Hg' & h & l1 & l2 & H1 & H2 & H3 & H4 & H5 & Hup).
      destruct (bw_full_bupd w N n nf _ _ _ (m, p) (m', p') (conj HI HF) Hup) as [HI' Hfr].
      { intros. apply iter_decf_ok; [lia|done]. } { intros. apply iter_decf_ok; [lia|done]. }
      split; [done|]. split; [done|]. split; [by apply (bw_E1n_of N n nf ct x j h l1 l2)|]. done.
    - intros boost n nf m p x j ct g [HI HF] Hx Hj Hct Hg. pose proof HI as (_ & _ & Er & Ec & _).
      eapply wp_mono; [by eapply bw_t1p_spec|]. intros [[[m' p'] ct'] g'] (Hg' & Hok & Htos & Hup).
      destruct (bw_full_bupd w N n nf _ _ _ (m, p) (m', p') (conj HI HF) Hup) as [HI' Hfr].
      { intros. apply b2_pos_ok; [lia|done]. } { intros. apply b2_neg_ok; [lia|done]. }
      split; [done|]. split; [done|]. split; [by apply (bw_E1p_of N boost n nf ct ct' x j)|]. split; [apply Htos|done].
    - intros n nf m p x j [HI HF] Hx Hj. pose proof HI as ((Hgd & _) & Ew & Er & Ec & _).
      eapply wp_mono; [by eapply bw_t2_spec|]. intros [m' p'] Hup.
      destruct (bw_full_bupd w N n nf _ _ _ (m, p) (m', p') (conj HI HF) Hup) as [HI' Hfr].
      { intros. by apply b3f_full; [|lia|..]. } { intros. by apply b3f_full; [|lia|..]. }
      split; [done|]. split; [done|]. intros k Hk. destruct Hup as (_ & _ & Hcell & _). cbn [fst] in *.
      rewrite <- !(jv_fst (m', p')), <- !(jv_fst (m, p)), !Hcell by (cbn [fst]; lia).
      rewrite on_clause_pos, on_clause_neg.
      split; apply (b3f_full w N); auto; try lia; try (apply HF; lia);
        rewrite <- Ew; destruct Hgd as (_ & _ & Hgd); apply Hgd; simpl; lia.
    - exact (bw_f1n N).
    - exact (bw_f1p N).
    - exact bw_f2.
    - exact (bw_s1n N).
    - exact (bw_s1p N).
  Qed.
End Bitwise.
