(** * Histories of the caching coin tossers, and how many ones they hold (C64). *)
From stdpp Require Import tactics list.
From Verif Require Import Base Floats Rng Env CoinTosser Algo Wp CtFacts ContainersFacts KernelFacts KernelProps CachedTossers CachedTosserFacts FloatProps LossFacts.
From Coq Require Import ZArith Reals Psatz.
From Flocq Require Import Core.Core.
From stdpp Require Import list.
Local Open Scope Z_scope.

(** ** The number of ones *)
Lemma ones_wanted_spec s (size : nat) : fin32 s -> (1 <= val s)%R -> Z.of_nat size <= 16777216 ->
  exists n, ones_wanted size s = Ret n /\ 0 <= n <= Z.of_nat size /\ (Rabs (IZR n - INR size / val s) <= / 2 + INR size / val s / 16777216 + / 10 ^ 30)%R.
Proof.
  intros Hf Hs Hz. rewrite INR_IZR_INZ. set (z := Z.of_nat size) in *. assert (0 <= z) as Hz0 by lia. unfold ones_wanted. fold z.
  destruct (of_Z32_small z ltac:(rewrite Z.abs_eq by lia; exact Hz)) as [Fz Vz].
  assert (0 <= IZR z <= 16777216)%R as Bz by (split; [by apply (IZR_le 0)|by apply IZR_le]).
  assert (0 <= IZR z / val s <= IZR z)%R as Bq.
  { split; [apply Rmult_le_pos; [lra|left; apply Rinv_0_lt_compat; lra]|]. apply (Rmult_le_reg_r (val s)); [lra|]. unfold Rdiv. rewrite Rmult_assoc, Rinv_l by lra. nra. }
  destruct (div32 (f32_of_Z z) s Fz Hf) as [Fd Vd]; [lra|rewrite Vz, Rabs_pos_eq by lra; lra|]. rewrite Vz in Vd.
  set (q := (IZR z / val s)%R) in *.
  assert (0 <= r32 q <= IZR z)%R as Br.
  { split; [apply (r32_ge q (IZR 0)); [by apply fmt32_int|apply Bq]|apply (r32_le q (IZR z)); [apply fmt32_int; rewrite Z.abs_eq by lia; exact Hz|apply Bq]]. }
  destruct (round32 _ Fd) as [Fr Vr]; [rewrite Vd; apply Br|]. rewrite Vd in Vr.
  set (n := Zfloor (r32 q + / 2)) in *.
  assert (0 <= n <= z) as Bn.
  { split; [apply Zfloor_lub; lra|]. enough (n < z + 1) by lia. apply lt_IZR. rewrite plus_IZR. pose proof (Zfloor_lb (r32 q + / 2)) as Q. fold n in Q. lra. }
  exists n. split; [|split; [done|]].
  - rewrite (to_u32_spec 24 128); [rewrite Vr; by rewrite Zfloor_IZR|done|]. rewrite Vr.
    assert (IZR n <= IZR z)%R by (apply IZR_le; lia). assert (0 <= IZR n)%R by (apply IZR_le; lia). lra.
  - pose proof (Zfloor_lb (r32 q + / 2)) as L. pose proof (Zfloor_ub (r32 q + / 2)) as Ub. fold n in L, Ub.
    assert (Rabs (r32 q - q) <= q / 16777216 + / 10 ^ 30)%R as Q.
    { destruct (r32_err q) as (ep & et & He & Ht & ->). replace (q * (1 + ep) + et - q)%R with (q * ep + et)%R by ring.
      eapply Rle_trans; [apply Rabs_triang|]. rewrite Rabs_mult, (Rabs_pos_eq q) by lra.
      assert (bpow radix2 (-150) <= / 10 ^ 30)%R as B.
      { assert ((10 ^ 30)%R = IZR (10 ^ 30)) as -> by (rewrite (pow_IZR 10 30); apply f_equal; vm_compute; reflexivity).
        change (bpow radix2 (-150)) with (/ IZR (2 ^ 150))%R. apply Rinv_le_contravar; [apply (IZR_lt 0); reflexivity|apply IZR_le; vm_compute; discriminate]. }
      assert (q * Rabs ep <= q / 16777216)%R; [|lra]. unfold Rdiv. apply Rmult_le_compat_l; lra. }
    apply Rabs_le. apply Rabs_le_inv in Q. lra.
Qed.

(** ** Histories *)
Section Histories.
  Context (R : rnd).
  (** [k] calls of tosses(), each with the pointer returned and what a reader of [n] tosses (bits) finds there *)
  Fixpoint bt_run (k : nat) (bt : byte_tosser) (g : eG R) : outcome (list (nat * list Z) * byte_tosser * eG R) :=
    match k with
    | O => Ret ([], bt, g)
    | S k => let* '(off, bt, g) := bt_tosses R bt g in
             let* '(ws, bt', g) := bt_run k bt g in
             Ret ((off, bt_window bt off (bt_base bt)) :: ws, bt', g)
    end.
  Fixpoint kt_run (k : nat) (kt : bit_tosser) (g : eG R) : outcome (list (nat * list N * list Z) * bit_tosser * eG R) :=
    match k with
    | O => Ret ([], kt, g)
    | S k => let* '(blk, kt, g) := kt_tosses R kt g in
             let* '(ws, kt', g) := kt_run k kt g in
             Ret ((blk, kt_window kt blk, kbits (kt_cache kt)) :: ws, kt', g)
    end.
  Lemma bt_run_spec base extra : (0 < extra)%nat -> forall k c g, zo_list (base + extra) c ->
    exists ws c' g', bt_run k (ByteTosser base c) g = Ret (ws, ByteTosser base c', g') /\ c' ≡ₚ c /\ length ws = k /\
      Forall (fun '(off, w) => (off mod 64 = 0 /\ off < extra)%nat /\ zo_list base w) ws.
  Proof.
    intros He. induction k as [|k IH]; intros c g Hc; [by exists [], c, g|]. cbn [bt_run].
    destruct (tosses_spec R (ByteTosser base c) g extra) as (c1 & off & -> & Hp & Eo & Ho); [by cbn; apply Hc|done|]. cbn [obind bt_base bt_cache] in *.
    pose proof (zo_perm _ _ _ Hp Hc) as Hc1. destruct (IH c1 (g_skip R g 3) Hc1) as (ws & c' & g' & -> & Hp' & El & Hws). cbn [obind].
    eexists _, c', g'. split; [done|]. split; [by rewrite Hp'|]. split; [cbn; by rewrite El|]. apply Forall_cons. split; [|done].
    split; [split; [|done]|].
    - rewrite Eo, Nat.mul_comm. by apply Nat.mod_mul.
    - unfold bt_window. cbn [bt_cache bt_base]. destruct Hc1 as [El1 Hf1]. split; [rewrite take_length, drop_length; lia|]. by apply Forall_take, Forall_drop.
  Qed.

  Lemma ceil2_spec v : 0 <= v -> v + 64 <= 4294967296 -> ceil2 v 64 = 64 * ((v + 63) / 64).
  Proof.
    intros H0 H1. unfold ceil2, u32. pose proof (Z.div_mod (v + 63) 64). pose proof (Z.mod_pos_bound (v + 63) 64).
    destruct (Z.eq_dec (v + 64) 4294967296) as [E|E].
    - rewrite E. replace v with 4294967232 by lia. done.
    - rewrite (Z.mod_small (v + 64)) by lia. replace (v + 64 - 1) with (v + 63) by lia. rewrite (Z.mod_small (v + 63)) by lia.
      rewrite Z.mod_small; lia.
  Qed.
  Lemma blocks_for_Z n : Z.of_nat (blocks_for 64 n) = (Z.of_nat n + 63) / 64.
  Proof. unfold blocks_for. rewrite Nat2Z.inj_div. f_equal. lia. Qed.
  Lemma blocks_for_mul T : blocks_for 64 (64 * T) = T.
  Proof. apply Nat2Z.inj. rewrite blocks_for_Z. replace (Z.of_nat (64 * T) + 63) with (63 + Z.of_nat T * 64) by lia. rewrite Z.div_add by lia. done. Qed.
  Lemma kt_new_spec base extra : Z.of_nat (base + extra) + 63 < 4294967296 ->
    kt_new base extra = BitTosser (64 * blocks_for 64 base) (bv_new 64 (64 * blocks_for 64 (base + extra))).
  Proof.
    intros H. unfold kt_new. unfold u32. rewrite Z.mod_small by lia. rewrite !ceil2_spec by lia. f_equal; [|f_equal]; apply Nat2Z.inj.
    - rewrite Z2Nat.id, Nat2Z.inj_mul, blocks_for_Z; [done|]. apply Z.mul_nonneg_nonneg; [lia|]. apply Z.div_pos; lia.
    - rewrite Z2Nat.id, Nat2Z.inj_mul, blocks_for_Z; [f_equal; f_equal; lia|]. apply Z.mul_nonneg_nonneg; [lia|]. apply Z.div_pos; lia.
  Qed.
  (** a bit vector of exactly [T] blocks, all in use *)
  Definition room (T : nat) (v : bit_vector) : Prop := bv_wf 64 v /\ bv_len v = (64 * T)%nat /\ length (bv_blocks v) = T.
  Lemma same_room_room T v v' : same_room v v' -> room T v -> room T v'.
  Proof. intros (H1 & H2 & H3) (H4 & H5 & H6). split_and!; [done|lia|lia]. Qed.
  Lemma room_window T v blk c : room T v -> (c < 64 * (T - blk))%nat -> (blk <= T)%nat ->
    word_bit (drop blk (bv_blocks v)) c = bv_bit 64 v (64 * blk + c).
  Proof.
    intros (_ & _ & El) Hc Hb. unfold word_bit, bv_bit. rewrite lookup_drop.
    replace ((64 * blk + c) / 64)%nat with (blk + c / 64)%nat by (rewrite Nat.mul_comm, Nat.div_add_l by lia; done).
    replace ((64 * blk + c) mod 64)%nat with (c mod 64)%nat by (rewrite Nat.add_comm, Nat.mul_comm, Nat.mod_add by lia; done). done.
  Qed.
  (** the [nf] tosses starting at bit [64 * blk], and the words that hold them *)
  Definition good_window (nf T : nat) (blk : nat) (W : list N) (bits : list Z) : Prop :=
    let ct := take nf (drop (64 * blk) bits) in
    (blk + blocks_for 64 nf <= T)%nat /\ zo_list nf ct /\ packs nf W ct.
  Lemma blocks_for_le n : (n <= 64 * blocks_for 64 n)%nat.
  Proof. apply Nat2Z.inj_le. rewrite Nat2Z.inj_mul, blocks_for_Z. pose proof (Z.div_mod (Z.of_nat n + 63) 64). pose proof (Z.mod_pos_bound (Z.of_nat n + 63) 64). lia. Qed.
  Lemma room_good nf T v blk : room T v -> (blk + blocks_for 64 nf <= T)%nat -> good_window nf T blk (drop blk (bv_blocks v)) (kbits v).
  Proof.
    intros Hr Hb. pose proof Hr as (Hw & El & Eb). split; [done|]. pose proof (blocks_for_le nf) as Hn. pose proof (kbits_zo v) as [Lk Fk]. split.
    - split; [rewrite take_length, drop_length; lia|]. by apply Forall_take, Forall_drop.
    - split; [rewrite drop_length; lia|]. intros c Hc. rewrite (room_window T) by (done || lia). unfold toss.
      rewrite lookup_take by done. rewrite lookup_drop, kbits_at by lia. by destruct (bv_bit 64 v (64 * blk + c)).
  Qed.
  Lemma kt_run_spec nf T : (blocks_for 64 nf < T)%nat -> forall k v g, room T v ->
    exists ws v' g', kt_run k (BitTosser (64 * blocks_for 64 nf) v) g = Ret (ws, BitTosser (64 * blocks_for 64 nf) v', g') /\ room T v' /\ kbits v' ≡ₚ kbits v /\ length ws = k /\
      Forall (fun '(blk, W, bits) => good_window nf T blk W bits /\ bits ≡ₚ kbits v) ws.
  Proof.
    intros HT. induction k as [|k IH]; intros v g Hr; [by exists [], v, g|]. cbn [kt_run]. pose proof Hr as (Hw & El & Eb).
    assert (bv_content_blocks 64 v = T) as Ec by (unfold bv_content_blocks; rewrite El; apply blocks_for_mul).
    assert (64 * blocks_for 64 nf / 64 = blocks_for 64 nf)%nat as Ed by (rewrite Nat.mul_comm; by apply Nat.div_mul).
    destruct (kt_tosses_spec R (BitTosser (64 * blocks_for 64 nf) v) g (T - blocks_for 64 nf)) as (v1 & blk & -> & Hs & Hp & Eblk & Hblk);
      cbn [kt_cache kt_base]; [done|lia|lia|lia|lia|]. cbn [obind kt_cache kt_base] in *.
    pose proof (same_room_room _ _ _ Hs Hr) as Hr1. destruct (IH v1 (g_skip R g 3) Hr1) as (ws & v' & g' & -> & Hr' & Hp' & Elw & Hws). cbn [obind].
    eexists _, v', g'. split; [done|]. split; [done|]. split; [by rewrite Hp'|]. split; [cbn; by rewrite Elw|]. apply Forall_cons. split.
    - split; [|done]. apply room_good; [done|lia].
    - eapply Forall_impl; [exact Hws|]. intros [[b W] bits] [H1 H2]. split; [done|]. by rewrite H2.
  Qed.
End Histories.

Section Whole.
  Context (R : rnd) (g_ok : eG R -> Prop) (f_ok : eF R -> Prop) (HR : rnd_ok R g_ok f_ok).
  (** populate() of a fresh tosser, then any number of tosses() *)
  Lemma bt_whole base extra s n g : Z.of_nat (base + extra) < 4294967296 -> (0 < extra)%nat -> g_ok g ->
    ones_wanted (base + extra) s = Ret n -> 0 <= n <= Z.of_nat (base + extra) ->
    (covers R (base + extra) g -> exists bt g', bt_populate R s (bt_new base extra) g = Ret (bt, g')) /\
    forall bt g', bt_populate R s (bt_new base extra) g = Ret (bt, g') ->
      zo_list (base + extra) (bt_cache bt) /\ Z.of_nat (count_ones (bt_cache bt)) = n /\
      forall k, exists ws bt2 g2, bt_run R k bt g' = Ret (ws, bt2, g2) /\ bt_cache bt2 ≡ₚ bt_cache bt /\ (forall s2 g3, bt_populate R s2 bt2 g3 = bt_populate R s2 (bt_new base extra) g3) /\ length ws = k /\
        Forall (fun '(off, w) => (off mod 64 = 0 /\ off < extra)%nat /\ zo_list base w) ws.
  Proof using HR.
    intros Hz He Hg En Hn. unfold bt_populate, bt_new. cbn [bt_cache bt_base].
    unfold u32. rewrite Z.mod_small by lia. replace (Z.to_nat (Z.of_nat base + Z.of_nat extra)) with (base + extra)%nat by lia.
    rewrite replicate_length, En. cbn [obind].
    destruct (fill_facts R g_ok f_ok HR n (base + extra) g Hg (proj1 Hn) (proj2 Hn)) as [F1 F2]. split.
    - intros Hc. destruct (F2 Hc) as (c & g' & ->). cbn [obind]. eauto.
    - intros bt g' E. destruct (ct_fill R (tfuel R) n 0 (replicate (base + extra) 0) g) as [[c g1]| | |] eqn:Ef; [|done|done|done].
      cbn [obind] in E. injection E as <- <-. destruct (F1 c g1 eq_refl) as (_ & Hc & Ec). cbn [bt_cache]. split; [done|]. split; [done|].
      intros k. destruct (bt_run_spec R base extra He k c g1 Hc) as (ws & c' & g2 & E2 & Hp & El & Hws). exists ws, (ByteTosser base c'), g2.
      split; [done|]. split; [done|]. split; [|done]. intros s2 g3. apply Permutation_length in Hp. cbn [bt_cache bt_base].
      rewrite Hp, (proj1 Hc). by rewrite ?replicate_length.
  Qed.
  Lemma room_new T : room T (bv_new 64 (64 * T)).
  Proof.
    unfold room, bv_new, bv_wf. cbn [bv_len bv_blocks]. rewrite replicate_length, blocks_for_mul. split_and!; [lia| |done|done].
    apply Forall_replicate. apply block_ok_lt. reflexivity.
  Qed.
  Lemma kbits_zero T : kbits (BV (64 * T) (replicate T 0%N)) = replicate (64 * T) 0.
  Proof.
    apply kbits_ext; [by rewrite replicate_length|]. cbn [bv_len]. intros k Hk. rewrite lookup_replicate_2 by done. unfold bv_bit. cbn [bv_blocks].
    rewrite lookup_replicate_2 by (apply Nat.div_lt_upper_bound; lia). by rewrite N.bits_0.
  Qed.
  Lemma kt_populate_spec nf T s n g : g_ok g -> ones_wanted (64 * T) s = Ret n -> 0 <= n <= Z.of_nat (64 * T) ->
    let kt0 := BitTosser (64 * blocks_for 64 nf) (bv_new 64 (64 * T)) in
    (covers R (64 * T) g -> exists kt g', kt_populate R s kt0 g = Ret (kt, g')) /\
    forall kt g', kt_populate R s kt0 g = Ret (kt, g') -> kt_base kt = (64 * blocks_for 64 nf)%nat /\ room T (kt_cache kt) /\ Z.of_nat (count_ones (kbits (kt_cache kt))) = n.
  Proof using HR.
    intros Hg En Hn kt0. pose proof (room_new T) as Hr. unfold kt_populate, kt0. cbn [kt_cache kt_base].
    pose proof Hr as (_ & Hl & Hb). rewrite Hl, Hb, En. cbn [obind].
    destruct (fill_facts R g_ok f_ok HR n (64 * T) g Hg (proj1 Hn) (proj2 Hn)) as [F1 F2].
    assert (bv_wf 64 (BV (64 * T) (replicate T 0%N))) as Hw0.
    { unfold bv_new in Hr. rewrite blocks_for_mul in Hr. apply Hr. }
    pose proof (kt_fill_sim R n (tfuel R) 0 _ g Hw0) as Sim. rewrite kbits_zero in Sim.
    destruct (ct_fill R (tfuel R) n 0 (replicate (64 * T) 0) g) as [[c g1]| | |] eqn:Ef;
      destruct (kt_fill R (tfuel R) n 0 (BV (64 * T) (replicate T 0%N)) g) as [[v g2]| | |] eqn:Ek; try done; cbn [orel] in Sim; cbn [obind].
    - destruct Sim as (Ev & <- & Hs). split; [eauto|]. intros kt g' E. injection E as <- <-. cbn [kt_base kt_cache]. split; [done|].
      split; [|rewrite Ev; by apply (F1 c g2)]. eapply same_room_room; [exact Hs|]. unfold bv_new in Hr. by rewrite blocks_for_mul in Hr.
    - split; [|done]. intros Hc. destruct (F2 Hc) as (? & ? & ?). done.
    - split; [|done]. intros Hc. destruct (F2 Hc) as (? & ? & ?). done.
    - split; [|done]. intros Hc. destruct (F2 Hc) as (? & ? & ?). done.
  Qed.
  Lemma kt_whole nf extra s n g : Z.of_nat (nf + extra) + 63 < 4294967296 -> g_ok g ->
    let T := blocks_for 64 (nf + extra) in
    (blocks_for 64 nf < T)%nat -> ones_wanted (64 * T) s = Ret n -> 0 <= n <= Z.of_nat (64 * T) ->
    (covers R (64 * T) g -> exists kt g', kt_populate R s (kt_new nf extra) g = Ret (kt, g')) /\
    forall kt g', kt_populate R s (kt_new nf extra) g = Ret (kt, g') ->
      zo_list (64 * T) (kbits (kt_cache kt)) /\ Z.of_nat (count_ones (kbits (kt_cache kt))) = n /\
      forall k, exists ws kt2 g2, kt_run R k kt g' = Ret (ws, kt2, g2) /\ kbits (kt_cache kt2) ≡ₚ kbits (kt_cache kt) /\ (forall s2 g3, kt_populate R s2 kt2 g3 = kt_populate R s2 (kt_new nf extra) g3) /\ length ws = k /\
        Forall (fun '(blk, W, bits) => good_window nf T blk W bits /\ bits ≡ₚ kbits (kt_cache kt)) ws.
  Proof using HR.
    intros Hz Hg T HT En Hn. rewrite kt_new_spec by done. fold T.
    destruct (kt_populate_spec nf T s n g Hg En Hn) as [P1 P2]. split; [done|]. intros kt g' E. destruct (P2 kt g' E) as (Eb & Hr & Ec).
    destruct kt as [base v]. cbn [kt_base kt_cache] in *. subst base. pose proof Hr as (_ & Hl & _). split; [rewrite <- Hl; apply kbits_zo|]. split; [done|].
    intros k. destruct (kt_run_spec R nf T HT k v g' Hr) as (ws & v' & g2 & E2 & (_ & Hl2 & Hb2) & Hp & El & Hws). exists ws, (BitTosser (64 * blocks_for 64 nf) v'), g2.
    split; [done|]. split; [done|]. split; [|done]. intros s2 g3. destruct (room_new T) as (_ & Hl0 & Hb0). unfold kt_populate. cbn [kt_cache kt_base].
    rewrite Hl2, Hb2, Hl0, Hb0. done.
  Qed.
  (** without room behind the base size there is nothing to choose from *)
  Lemma kt_none nf extra s n g kt g' : Z.of_nat (nf + extra) + 63 < 4294967296 -> (0 < nf)%nat -> g_ok g ->
    blocks_for 64 nf = blocks_for 64 (nf + extra) -> ones_wanted (64 * blocks_for 64 nf) s = Ret n -> 0 <= n <= Z.of_nat (64 * blocks_for 64 nf) ->
    kt_populate R s (kt_new nf extra) g = Ret (kt, g') -> kt_tosses R kt g' = UB DivByZero.
  Proof using HR.
    intros Hz Hnf Hg Eq En Hn E. rewrite kt_new_spec, <- Eq in E by done.
    destruct (proj2 (kt_populate_spec nf (blocks_for 64 nf) s n g Hg En Hn) kt g' E) as (Eb & (Hw & Hl & Hbl) & _).
    pose proof (blocks_for_le nf). apply kt_tosses_none; [done|lia|]. unfold bv_content_blocks. rewrite Hl, blocks_for_mul, Eb. rewrite Nat.mul_comm. symmetry. by apply Nat.div_mul.
  Qed.
  Lemma bt_stuck base extra g : Z.of_nat (base + extra) = 16777219 -> g_ok g -> bt_populate R f32_one (bt_new base extra) g = OutOfFuel.
  Proof using HR.
    intros Hz Hg. unfold bt_populate, bt_new. cbn [bt_cache bt_base]. unfold u32. rewrite Z.mod_small by lia.
    replace (Z.to_nat (Z.of_nat base + Z.of_nat extra)) with (base + extra)%nat by lia. rewrite replicate_length.
    assert (ones_wanted (base + extra) f32_one = Ret 16777220) as -> by (unfold ones_wanted; rewrite Hz; vm_compute; reflexivity). cbn [obind].
    rewrite (fill_forever R g_ok f_ok HR) by (done || lia). done.
  Qed.
  Lemma bt_none base s n g bt g' : Z.of_nat base < 4294967296 -> (0 < base)%nat -> g_ok g -> ones_wanted base s = Ret n -> 0 <= n <= Z.of_nat base ->
    bt_populate R s (bt_new base 0) g = Ret (bt, g') -> bt_tosses R bt g' = UB DivByZero.
  Proof using HR.
    intros Hz Hb Hg En Hn. unfold bt_populate, bt_new. cbn [bt_cache bt_base]. unfold u32. rewrite Z.mod_small by lia.
    replace (Z.to_nat (Z.of_nat base + Z.of_nat 0)) with base by lia. rewrite replicate_length, En. cbn [obind].
    destruct (fill_facts R g_ok f_ok HR n base g Hg (proj1 Hn) (proj2 Hn)) as [F1 _].
    destruct (ct_fill R (tfuel R) n 0 (replicate base 0) g) as [[c g1]| | |]; cbn [obind]; [|done|done|done]. intros E. injection E as <- <-.
    destruct (F1 c g1 eq_refl) as (_ & [El _] & _). apply tosses_none; cbn [bt_cache bt_base]; lia.
  Qed.
End Whole.

(** ** The tosser of the "bitwise caches" *)
Lemma cache_tosser_made nf : 3 <= nf <= 89478485 ->
  bitwise_cache_tosser nf = Ret (kt_new (Z.to_nat nf) (Z.to_nat (24 * nf))) /\ Z.of_nat (Z.to_nat nf + Z.to_nat (24 * nf)) + 63 < 4294967296 /\
  (blocks_for 64 (Z.to_nat nf) < blocks_for 64 (Z.to_nat nf + Z.to_nat (24 * nf)))%nat.
Proof.
  intros H. unfold bitwise_cache_tosser, ci32, in_i32, u32. rewrite (proj2 (Z.leb_le _ _)), (proj2 (Z.leb_le _ _)) by (unfold int_min, int_max; lia). cbn [andb obind].
  rewrite !Z.mod_small by lia. split; [done|]. split; [lia|]. apply Nat2Z.inj_lt. rewrite !blocks_for_Z.
  replace (Z.of_nat (Z.to_nat nf + Z.to_nat (24 * nf)) + 63) with ((Z.of_nat (Z.to_nat nf) + 63) + 24 * nf) by lia.
  pose proof (Z.div_le_mono (Z.of_nat (Z.to_nat nf) + 63 + 1 * 64) (Z.of_nat (Z.to_nat nf) + 63 + 24 * nf) 64 ltac:(lia) ltac:(lia)) as Q.
  rewrite Z.div_add in Q by lia. lia.
Qed.
Lemma cache_tosser_overflow nf : 89478486 <= nf <= int_max -> bitwise_cache_tosser nf = UB SignedOverflow.
Proof.
  intros H. unfold bitwise_cache_tosser, ci32, in_i32. rewrite (proj2 (Z.leb_gt (24 * nf) int_max)) by (unfold int_max; lia). by rewrite andb_false_r.
Qed.
Lemma cache_tosser_small nf : 1 <= nf <= 2 ->
  bitwise_cache_tosser nf = Ret (kt_new (Z.to_nat nf) (Z.to_nat (24 * nf))) /\ blocks_for 64 (Z.to_nat nf) = 1%nat /\ blocks_for 64 (Z.to_nat nf + Z.to_nat (24 * nf)) = 1%nat.
Proof. intros H. assert (nf = 1 \/ nf = 2) as [-> | ->] by lia; done. Qed.
(** where the pointers point, exactly *)
Lemma kt_pointer (R : rnd) nf T v g : (blocks_for 64 nf < T)%nat -> room T v ->
  exists v', kt_tosses R (BitTosser (64 * blocks_for 64 nf) v) g = Ret (Z.to_nat (g_draw R g 2 mod Z.of_nat (T - blocks_for 64 nf)), BitTosser (64 * blocks_for 64 nf) v', g_skip R g 3).
Proof.
  intros HT (Hw & El & Eb).
  assert (bv_content_blocks 64 v = T) as Ec by (unfold bv_content_blocks; rewrite El; apply blocks_for_mul).
  assert (64 * blocks_for 64 nf / 64 = blocks_for 64 nf)%nat as Ed by (rewrite Nat.mul_comm; by apply Nat.div_mul).
  destruct (kt_tosses_spec R (BitTosser (64 * blocks_for 64 nf) v) g (T - blocks_for 64 nf)) as (v1 & blk & E & _ & _ & -> & _);
    cbn [kt_cache kt_base]; [done|lia|lia|lia|lia|]. eauto.
Qed.
Lemma kt_unaligned (R : rnd) nf T v g : (blocks_for 64 nf < T)%nat -> room T v -> (g_draw R g 2 mod Z.of_nat (T - blocks_for 64 nf)) mod 8 <> 0 ->
  exists blk v' g', kt_tosses R (BitTosser (64 * blocks_for 64 nf) v) g = Ret (blk, v', g') /\ (8 * Z.of_nat blk) mod 64 <> 0.
Proof.
  intros HT Hr H8. destruct (kt_pointer R nf T v g HT Hr) as [v' E]. eexists _, _, _. split; [exact E|].
  pose proof (Z.mod_pos_bound (g_draw R g 2) (Z.of_nat (T - blocks_for 64 nf)) ltac:(lia)) as B. rewrite Z2Nat.id by lia.
  change 64 with (8 * 8). rewrite Z.mul_mod_distr_l by lia. lia.
Qed.
Lemma small_undefined (R : rnd) g_ok f_ok nf kt0 s g kt g' : rnd_ok R g_ok f_ok -> fin32 s -> (1 <= val s)%R -> g_ok g -> 1 <= nf <= 2 ->
  bitwise_cache_tosser nf = Ret kt0 -> kt_populate R s kt0 g = Ret (kt, g') -> kt_tosses R kt g' = UB DivByZero.
Proof.
  intros HR Hf Hs Hg Hnf E0 Ep. destruct (cache_tosser_small nf Hnf) as (E & E1 & E2). rewrite E in E0. injection E0 as <-.
  destruct (ones_wanted_spec s (64 * 1) Hf Hs ltac:(done)) as (n & En & Hn & _).
  eapply (kt_none R g_ok f_ok HR (Z.to_nat nf) (Z.to_nat (24 * nf)) s n g); [lia|lia|done|congruence|by rewrite E1|by rewrite E1|exact Ep].
Qed.
Lemma cache_tosser_works (R : rnd) g_ok f_ok nf s g : rnd_ok R g_ok f_ok -> fin32 s -> (1 <= val s)%R -> g_ok g -> 3 <= nf <= 671088 ->
  exists kt0 n, bitwise_cache_tosser nf = Ret kt0 /\ let T := blocks_for 64 (Z.to_nat (25 * nf)) in
    (Rabs (IZR n - INR (64 * T) / val s) <= / 2 + INR (64 * T) / val s / 16777216 + / 10 ^ 30)%R /\
    (covers R (64 * T) g -> exists kt g', kt_populate R s kt0 g = Ret (kt, g')) /\
    forall kt g', kt_populate R s kt0 g = Ret (kt, g') ->
      zo_list (64 * T) (kbits (kt_cache kt)) /\ Z.of_nat (count_ones (kbits (kt_cache kt))) = n /\
      forall k, exists ws kt2 g2, kt_run R k kt g' = Ret (ws, kt2, g2) /\ kbits (kt_cache kt2) ≡ₚ kbits (kt_cache kt) /\ (forall s2 g3, kt_populate R s2 kt2 g3 = kt_populate R s2 kt0 g3) /\ length ws = k /\
        Forall (fun '(blk, W, bits) => good_window (Z.to_nat nf) T blk W bits /\ bits ≡ₚ kbits (kt_cache kt)) ws.
Proof.
  intros HR Hf Hs Hg Hnf. destruct (cache_tosser_made nf ltac:(lia)) as (E & Hz & HT).
  replace (Z.to_nat nf + Z.to_nat (24 * nf))%nat with (Z.to_nat (25 * nf)) in * by lia.
  assert (Z.of_nat (64 * blocks_for 64 (Z.to_nat (25 * nf))) <= 16777216) as Hsz.
  { rewrite Nat2Z.inj_mul, blocks_for_Z. rewrite Z2Nat.id by lia. pose proof (Z.div_le_mono (25 * nf + 63) 16777263 64 ltac:(lia) ltac:(lia)) as Q.
    change (16777263 / 64) with 262144 in Q. change (Z.of_nat 64) with 64. lia. }
  destruct (ones_wanted_spec s (64 * blocks_for 64 (Z.to_nat (25 * nf))) Hf Hs Hsz) as (n & En & Hn & Hr).
  exists (kt_new (Z.to_nat nf) (Z.to_nat (24 * nf))), n. split; [done|]. intros T. split; [done|].
  pose proof (kt_whole R g_ok f_ok HR (Z.to_nat nf) (Z.to_nat (24 * nf)) s n g) as W. cbv zeta in W.
  replace (Z.to_nat nf + Z.to_nat (24 * nf))%nat with (Z.to_nat (25 * nf)) in W by lia. exact (W Hz Hg HT En Hn).
Qed.
