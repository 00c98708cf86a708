(** * Facts about aligned storage (Aligned.v). *)
From Verif Require Export Aligned ContainersFacts.
From stdpp Require Import list.
Local Open Scope Z_scope.

Lemma u64_id z : 0 <= z <= size_max -> u64 z = z.
Proof. intros H. unfold u64, size_max in *. apply Z.mod_small. lia. Qed.
Lemma power_of_two x : 0 <= x <= size_max -> is_power_of_two x = true <-> exists k, 0 <= k < 64 /\ x = 2 ^ k.
Proof.
  unfold size_max. intros Hx. unfold is_power_of_two. destruct (Z.eqb_spec x 0) as [->|Hn]; cbn [negb andb].
  { split; [done|]. intros (k & Hk & E). pose proof (Z.pow_pos_nonneg 2 k). lia. }
  rewrite u64_id by (unfold size_max; lia). rewrite Z.eqb_eq. split.
  - intros H. exists (Z.log2 x). pose proof (Z.log2_spec x ltac:(lia)) as [H1 H2]. split.
    { split; [apply Z.log2_nonneg|]. apply Z.log2_lt_pow2; lia. }
    destruct (Z.eq_dec x (2 ^ Z.log2 x)) as [E|E]; [done|exfalso].
    assert (Z.testbit x (Z.log2 x) = true) as B1 by (apply Z.bit_log2; lia).
    assert (Z.testbit (x - 1) (Z.log2 x) = true) as B2.
    { replace (Z.log2 x) with (Z.log2 (x - 1)) at 1; [apply Z.bit_log2; pose proof (Z.pow_pos_nonneg 2 (Z.log2 x)); pose proof (Z.log2_nonneg x); lia|].
      apply Z.log2_unique; [apply Z.log2_nonneg|lia]. }
    pose proof (Z.land_spec x (x - 1) (Z.log2 x)) as B. rewrite H, B1, B2, Z.bits_0 in B. discriminate B.
  - intros (k & Hk & ->).
    replace (2 ^ k - 1) with (Z.ones k) by (rewrite Z.ones_equiv; lia). rewrite Z.land_ones by lia. apply Z.mod_same. pose proof (Z.pow_pos_nonneg 2 k). lia.
Qed.
Lemma align_up_spec addr k : 0 <= k < 64 -> 0 <= addr -> addr + 2 ^ k - 1 <= size_max ->
  align_up addr (2 ^ k) = (addr + 2 ^ k - 1) / 2 ^ k * 2 ^ k.
Proof.
  intros Hk Ha Hs. assert (0 < 2 ^ k) by (apply Z.pow_pos_nonneg; lia). unfold align_up.
  assert (u64 (u64 (addr + 2 ^ k) - 1) = addr + 2 ^ k - 1) as ->.
  { unfold u64. rewrite Zminus_mod_idemp_l. apply u64_id. lia. }
  assert (u64 (2 ^ k - 1) = Z.ones k) as ->.
  { rewrite Z.ones_equiv. rewrite u64_id; [lia|]. assert (2 ^ k <= 2 ^ 63) by (apply Z.pow_le_mono_r; lia). unfold size_max. lia. }
  unfold u64. change 18446744073709551616 with (2 ^ 64). rewrite <- Z.land_ones by lia.
  rewrite (Z.land_comm (Z.lnot _)), Z.land_assoc, Z.land_ones by lia. rewrite Z.mod_small by (unfold size_max in Hs; lia).
  rewrite <- Z.ldiff_land, Z.ldiff_ones_r by lia. rewrite Z.shiftl_mul_pow2, Z.shiftr_div_pow2 by lia. done.
Qed.
Lemma align_up_bounds addr k : 0 <= k < 64 -> 0 <= addr -> addr + 2 ^ k - 1 <= size_max ->
  align_up addr (2 ^ k) mod 2 ^ k = 0 /\ addr <= align_up addr (2 ^ k) <= addr + 2 ^ k - 1.
Proof.
  intros Hk Ha Hs. assert (0 < 2 ^ k) by (apply Z.pow_pos_nonneg; lia). rewrite align_up_spec by done.
  split; [apply Z.mod_mul; lia|]. pose proof (Z.div_mod (addr + 2 ^ k - 1) (2 ^ k) ltac:(lia)) as E.
  pose proof (Z.mod_pos_bound (addr + 2 ^ k - 1) (2 ^ k) ltac:(lia)). nia.
Qed.
Lemma align_up_aligned addr k : 0 <= k < 64 -> 0 <= addr -> addr + 2 ^ k - 1 <= size_max -> addr mod 2 ^ k = 0 -> align_up addr (2 ^ k) = addr.
Proof.
  intros Hk Ha Hs Hm. assert (0 < 2 ^ k) by (apply Z.pow_pos_nonneg; lia). rewrite align_up_spec by done.
  pose proof (Z.div_mod addr (2 ^ k) ltac:(lia)) as E. rewrite Hm in E.
  set (q := addr / 2 ^ k) in *. clearbody q. replace (addr + 2 ^ k - 1) with (q * 2 ^ k + (2 ^ k - 1)) by lia. rewrite Z.div_add_l by lia. rewrite Z.div_small by lia. lia.
Qed.

(** ** AlignedArray *)
Lemma aa_data_spec addr sz nelem al : is_power_of_two al = true -> 0 <= al <= size_max -> 0 <= sz -> 0 <= nelem -> 0 <= addr ->
  addr + aa_bytes sz nelem al - 1 <= size_max ->  (* the storage is in the address space *)
  addr + al - 1 <= size_max ->
  aa_data addr al mod al = 0 /\ addr <= aa_data addr al /\ aa_data addr al + nelem * sz <= addr + aa_bytes sz nelem al.
Proof.
  intros Hp Hal Hsz Hne Ha Hb Hb2. apply power_of_two in Hp as (k & Hk & ->); [|done].
  destruct (align_up_bounds addr k Hk Ha Hb2) as [H1 H2]. unfold aa_data, aa_offset, aa_bytes. rewrite u64_id by (unfold size_max in *; lia).
  replace (addr + (align_up addr (2 ^ k) - addr)) with (align_up addr (2 ^ k)) by lia. split; [done|]. nia.
Qed.
Lemma copy_frame m src dst n x : x < dst \/ dst + Z.of_nat n <= x -> copy_bytes m src dst n x = m x.
Proof.
  revert m src dst. induction n as [|n IH]; intros m src dst H; [done|]. cbn [copy_bytes]. rewrite IH by lia. unfold mem_set.
  destruct (Z.eqb_spec x dst); [lia|done].
Qed.
Lemma copy_content m src dst n i : src + Z.of_nat n <= dst \/ dst + Z.of_nat n <= src -> (i < n)%nat ->
  copy_bytes m src dst n (dst + Z.of_nat i) = m (src + Z.of_nat i).
Proof.
  revert m src dst i. induction n as [|n IH]; intros m src dst i H Hi; [lia|]. cbn [copy_bytes]. destruct i as [|i].
  - rewrite copy_frame by lia. unfold mem_set. replace (dst + Z.of_nat 0) with dst by lia. rewrite Z.eqb_refl. f_equal. lia.
  - replace (dst + Z.of_nat (S i)) with (dst + 1 + Z.of_nat i) by lia. rewrite IH by lia. unfold mem_set.
    destruct (Z.eqb_spec (src + 1 + Z.of_nat i) dst); [lia|]. f_equal. lia.
Qed.
(** the storage of an array at [addr] *)
Definition storage (addr sz nelem al x : Z) : Prop := addr <= x < addr + aa_bytes sz nelem al.
Definition placed (addr sz nelem al : Z) : Prop :=
  0 <= addr /\ addr + aa_bytes sz nelem al - 1 <= size_max /\ addr + al - 1 <= size_max.
Lemma aa_assign_spec m this other sz nelem al : is_power_of_two al = true -> 0 <= al <= size_max -> 0 <= sz -> 0 <= nelem ->
  placed this sz nelem al -> placed other sz nelem al -> (forall x, ~ (storage this sz nelem al x /\ storage other sz nelem al x)) ->
  let m' := aa_assign m this other sz nelem al in
  aa_equal m' this other sz nelem al = true /\ (forall x, ~ storage this sz nelem al x -> m' x = m x) /\
  (forall i, 0 <= i < nelem * sz -> m' (aa_data this al + i) = m (aa_data other al + i)).
Proof.
  intros Hp Hal Hsz Hne (Ht1 & Ht2 & Ht3) (Ho1 & Ho2 & Ho3) Hd.
  destruct (aa_data_spec this sz nelem al Hp Hal Hsz Hne Ht1 Ht2 Ht3) as (_ & A1 & A2).
  destruct (aa_data_spec other sz nelem al Hp Hal Hsz Hne Ho1 Ho2 Ho3) as (_ & B1 & B2).
  cbv zeta. unfold aa_assign. set (n := Z.to_nat (nelem * sz)). assert (Z.of_nat n = nelem * sz) as Hn by (unfold n; rewrite Z2Nat.id; nia).
  assert (0 < al) as Hal0.
  { apply power_of_two in Hp as (k & Hk & ->); [|done]. apply Z.pow_pos_nonneg; lia. }
  assert (n <> 0%nat -> aa_data other al + Z.of_nat n <= aa_data this al \/ aa_data this al + Z.of_nat n <= aa_data other al) as Hsep.
  { intros H0. destruct (Z.le_gt_cases (aa_data other al + Z.of_nat n) (aa_data this al)) as [|G1]; [by left|].
    destruct (Z.le_gt_cases (aa_data this al + Z.of_nat n) (aa_data other al)) as [|G2]; [by right|].
    destruct (Hd (Z.max (aa_data this al) (aa_data other al))). unfold storage. lia. }
  assert (forall i, (i < n)%nat -> copy_bytes m (aa_data other al) (aa_data this al) n (aa_data this al + Z.of_nat i) = m (aa_data other al + Z.of_nat i)) as HC.
  { intros i Hi. apply copy_content; [apply Hsep; lia|done]. }
  split; [|split].
  - unfold aa_equal. fold n. apply forallb_forall. intros i Hi. apply in_seq in Hi. apply Z.eqb_eq. rewrite HC by lia.
    rewrite copy_frame; [done|]. destruct (Hsep ltac:(lia)); lia.
  - intros x Hx. apply copy_frame. unfold storage in Hx. lia.
  - intros i Hi. replace i with (Z.of_nat (Z.to_nat i)) by lia. apply HC. lia.
Qed.

(** ** Generator buffers *)
Lemma prng_ptr_spec addr sz n al : is_power_of_two al = true -> 0 <= al <= size_max -> 0 < sz -> 0 <= n -> 0 <= addr -> addr + al - 1 <= size_max ->
  (addr mod al = 0 \/ al mod sz = 0) ->
  prng_ptr addr al mod al = 0 /\ addr <= prng_ptr addr al /\ prng_ptr addr al + n * sz <= addr + prng_bytes sz n al.
Proof.
  intros Hp Hal Hsz Hn Ha Hb Hor. apply power_of_two in Hp as (k & Hk & ->); [|done]. assert (0 < 2 ^ k) by (apply Z.pow_pos_nonneg; lia).
  destruct (align_up_bounds addr k Hk Ha Hb) as [H1 H2]. unfold prng_ptr, prng_bytes. split; [done|]. split; [lia|].
  assert (0 <= 2 ^ k / sz) by (apply Z.div_pos; lia). destruct Hor as [Hm|Hm].
  - rewrite align_up_aligned by done. nia.
  - pose proof (Z.div_mod (2 ^ k) sz ltac:(lia)). nia.
Qed.

(** ** Allocation *)
Lemma al_allocate_spec sz n : 0 < sz -> 0 <= n ->
  match al_allocate sz n with
  | NullPointer => n = 0
  | Bytes b => 0 < n /\ b = n * sz /\ b <= size_max
  | LengthError => size_max < n * sz
  end.
Proof.
  intros Hsz Hn. unfold al_allocate, al_max_size. destruct (Z.eqb_spec n 0); [done|].
  pose proof (Z.div_mod size_max sz ltac:(lia)) as E. pose proof (Z.mod_pos_bound size_max sz Hsz) as B.
  destruct (Z.ltb_spec (size_max / sz) n).
  - nia.
  - assert (n * sz <= size_max) by nia. rewrite u64_id by nia. lia.
Qed.

(** ** Rows *)
Lemma u32_multiple z d : 4294967296 mod d = 0 -> 0 < d -> z mod d = 0 -> u32 z mod d = 0.
Proof.
  intros H1 Hd H2. unfold u32. apply Z.mod_divide in H1; [|lia]. apply Z.mod_divide in H2; [|lia]. apply Z.mod_divide; [lia|].
  rewrite (Z.mod_eq z 4294967296) by lia. apply Z.divide_sub_r; [done|]. by apply Z.divide_mul_l.
Qed.
Lemma row_items_multiple w cols : w = 8 \/ w = 16 \/ w = 32 -> (row_items w cols * (w / 8)) mod 64 = 0.
Proof.
  intros Hw. assert ((row_items w cols) mod (64 / (w / 8)) = 0) as H.
  { unfold row_items. cbv zeta. apply u32_multiple; [by destruct Hw as [->|[->| ->]]|by destruct Hw as [->|[->| ->]]|apply Z.mod_mul; by destruct Hw as [->|[->| ->]]]. }
  pose proof (Z.div_mod (row_items w cols) (64 / (w / 8)) ltac:(by destruct Hw as [->|[->| ->]])) as E. rewrite H in E. rewrite E, Z.add_0_r.
  replace (64 / (w / 8) * (row_items w cols / (64 / (w / 8))) * (w / 8)) with (row_items w cols / (64 / (w / 8)) * (64 / (w / 8) * (w / 8))) by lia.
  replace (64 / (w / 8) * (w / 8)) with 64 by (by destruct Hw as [->|[->| ->]]). apply Z.mod_mul. lia.
Qed.
Lemma nm_row_aligned base m r : base mod 64 = 0 -> nm_w m = 8 \/ nm_w m = 16 \/ nm_w m = 32 -> nm_row_address base m r mod 64 = 0.
Proof.
  intros Hb Hw. unfold nm_row_address, nm_offset, nm_stride. rewrite Nat.add_0_r, Nat2Z.inj_mul.
  assert (0 <= row_items (nm_w m) (nm_cols m)) by (unfold row_items, u32; cbv zeta; apply Z.mod_pos_bound; lia).
  rewrite Z2Nat.id by done. rewrite <- Z.mul_assoc. rewrite Zplus_mod, Hb, Zmult_mod, row_items_multiple by done. by rewrite Z.mul_0_r.
Qed.
Lemma bm_row_aligned base rows cols r : base mod 64 = 0 -> bm_row_address base 64 (bm_new 64 rows cols) r mod 64 = 0.
Proof.
  intros Hb. unfold bm_row_address, bm_new. cbn [bm_row_blocks]. rewrite Nat2Z.inj_mul.
  assert (0 <= row_blocks 64 cols) by (unfold row_blocks, u32; apply Z.mod_pos_bound; lia). rewrite Z2Nat.id by done.
  assert ((row_blocks 64 cols) mod 8 = 0) as H8.
  { unfold row_blocks. apply u32_multiple; [done|done|]. change (64 / (Z.of_nat 64 / 8)) with 8. apply Z.mod_mul. lia. }
  pose proof (Z.div_mod (row_blocks 64 cols) 8 ltac:(lia)) as E. rewrite H8 in E. change (Z.of_nat 64 / 8) with 8.
  replace (Z.of_nat r * row_blocks 64 cols * 8) with (Z.of_nat r * (row_blocks 64 cols / 8) * 64) by lia.
  rewrite Zplus_mod, Hb, Z.mod_mul by lia. done.
Qed.
