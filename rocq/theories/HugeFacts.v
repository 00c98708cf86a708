(** * Which shapes of matrices are usable: exactly those whose storage size fits 32 bits. *)
From Verif Require Import ContainersRefine.
Local Open Scope Z_scope.

Lemma u32_le z : 0 <= z -> 0 <= u32 z <= z.
Proof. intros H. unfold u32. pose proof (Z.mod_pos_bound z 4294967296 ltac:(lia)). pose proof (Z.mod_le z 4294967296 H ltac:(lia)). lia. Qed.
Lemma u32_drop z : 4294967296 <= z -> 0 <= u32 z <= z - 4294967296.
Proof.
  intros H. pose proof (u32_le (z - 4294967296) ltac:(lia)) as Hd. unfold u32 in *.
  replace (z mod 4294967296) with ((z - 4294967296) mod 4294967296); [done|].
  replace z with (z - 4294967296 + 1 * 4294967296) at 2 by lia. by rewrite Z_mod_plus_full.
Qed.
Lemma vget_past {A} (l : list A) i : (length l <= i)%nat -> vget l i = UB OutOfBounds.
Proof. intros H. unfold vget. by rewrite lookup_ge_None_2. Qed.

(** the last cell of a storage of [stride * rows] (modulo 2^32) items *)
Lemma last_past stride rows cols : 0 <= stride < 4294967296 -> 0 < rows -> 0 < cols ->
  stride < cols \/ 4294967296 <= stride * rows ->
  u32 (stride * rows) <= (rows - 1) * stride + (cols - 1).
Proof.
  intros Hs Hr Hc [H|H].
  - pose proof (u32_le (stride * rows) ltac:(nia)). nia.
  - pose proof (u32_drop _ H). nia.
Qed.

Section Numeric.
  Context (w : Z) (rows cols : nat) (Hw : w = 8 \/ w = 16 \/ w = 32).
  Context (Hr : 0 < Z.of_nat rows < 4294967296) (Hc : 0 < Z.of_nat cols < 4294967296).
  Notation item := (w / 8).
  Lemma row_items_range : 0 <= row_items w cols < 4294967296.
  Proof. unfold row_items, u32. apply Z.mod_pos_bound. lia. Qed.
  Lemma items_of_small : Z.of_nat cols * item + 63 < 4294967296 ->
    row_items w cols = (Z.of_nat cols * item + 63) / 64 * (64 / item) /\ Z.of_nat cols <= row_items w cols.
  Proof.
    intros H. assert (nm_fits w 0 cols) as Hf.
    { split; [done|]. split; [done|]. split; [lia|]. pose proof (Z.div_mod (Z.of_nat cols * item + 63) 64 ltac:(lia)). pose proof (Z.mod_pos_bound (Z.of_nat cols * item + 63) 64 ltac:(lia)).
      destruct Hw as [->|[->| ->]]; [change (64 / (8 / 8)) with 64; change (8 / 8) with 1 in *|change (64 / (16 / 8)) with 32; change (16 / 8) with 2 in *|change (64 / (32 / 8)) with 16; change (32 / 8) with 4 in *]; lia. }
    split; [exact (row_items_fits w 0 cols Hf)|exact (row_items_ge w 0 cols Hf)].
  Qed.
  Lemma items_of_large : 4294967296 <= Z.of_nat cols * item + 63 -> row_items w cols < Z.of_nat cols.
  Proof.
    intros H. unfold row_items; cbv zeta.
    assert (forall X, 0 <= X -> u32 (u32 (u32 X + 64 - 1) / 64 * (64 / item)) * item <= X + 63) as Hle.
    { intros X HX. pose proof (u32_le X HX) as H1. pose proof (u32_le (u32 X + 64 - 1) ltac:(lia)) as H2. set (q := u32 (u32 X + 64 - 1)) in *.
      pose proof (Z.div_mod q 64 ltac:(lia)). pose proof (Z.mod_pos_bound q 64 ltac:(lia)).
      destruct Hw as [->|[->| ->]]; [change (64 / (8 / 8)) with 64; change (8 / 8) with 1|change (64 / (16 / 8)) with 32; change (16 / 8) with 2|change (64 / (32 / 8)) with 16; change (32 / 8) with 4];
      match goal with |- context[u32 ?z] => pose proof (u32_le z ltac:(lia)) end; lia. }
    destruct (Z.le_gt_cases 4294967296 (Z.of_nat cols * item)) as [Hb|Hb].
    - (* the product wraps *)
      pose proof (u32_drop _ Hb) as Hd. assert (u32 (u32 (Z.of_nat cols * item)) = u32 (Z.of_nat cols * item)) as Eu.
      { apply u32_small. unfold u32. apply Z.mod_pos_bound. lia. }
      specialize (Hle (u32 (Z.of_nat cols * item)) ltac:(lia)). rewrite Eu in Hle.
      destruct Hw as [->|[->| ->]]; [change (8 / 8) with 1 in *|change (16 / 8) with 2 in *|change (32 / 8) with 4 in *]; lia.
    - (* rounding up wraps *)
      assert (u32 (u32 (Z.of_nat cols * item) + 64 - 1) / 64 = 0) as ->.
      { rewrite (u32_small (Z.of_nat cols * item)) by (destruct Hw as [->|[->| ->]]; [change (8 / 8) with 1 in *|change (16 / 8) with 2 in *|change (32 / 8) with 4 in *]; lia).
        pose proof (u32_drop (Z.of_nat cols * item + 64 - 1) ltac:(lia)). apply Z.div_small. lia. }
      rewrite Z.mul_0_l. change (u32 0) with 0. lia.
  Qed.
  (** usable shapes *)
  Definition numeric_usable : Prop :=
    Z.of_nat cols * item + 63 < 4294967296 /\ (Z.of_nat cols * item + 63) / 64 * (64 / item) * Z.of_nat rows < 4294967296.
  Lemma numeric_all : numeric_usable -> forall r c, (r < rows)%nat -> (c < cols)%nat -> nm_get (nm_new w rows cols) r c = Ret 0.
  Proof.
    intros [H1 H2] r c H3 H4. destruct (items_of_small H1) as [E _]. pose proof row_items_range as Hrg. rewrite E in Hrg.
    assert (nm_fits w rows cols) as Hf by (split; [done|]; split; [done|]; split; [done|lia]).
    destruct (nm_new_wf w rows cols Hf) as (Hwf & Er & Ec & _ & H0). rewrite <- (H0 r c). apply nm_get_spec; [done|by rewrite Er|by rewrite Ec].
  Qed.
  Lemma numeric_last : ~ numeric_usable -> nm_get (nm_new w rows cols) (rows - 1) (cols - 1) = UB OutOfBounds.
  Proof.
    intros H. unfold nm_get. apply vget_past. unfold nm_new, nm_offset, nm_stride; cbn [nm_data nm_w nm_cols]. rewrite replicate_length.
    pose proof row_items_range as Hrg.
    assert (row_items w cols < Z.of_nat cols \/ 4294967296 <= row_items w cols * Z.of_nat rows) as Hor.
    { destruct (Z.le_gt_cases 4294967296 (Z.of_nat cols * item + 63)) as [Hb|Hb]; [left; by apply items_of_large|]. destruct (items_of_small Hb) as [E _].
      right. rewrite E. apply Z.nlt_ge. intros Hn. apply H. by split. }
    pose proof (last_past (row_items w cols) (Z.of_nat rows) (Z.of_nat cols) Hrg ltac:(lia) ltac:(lia) Hor) as Hl.
    apply Nat2Z.inj_le. rewrite Nat2Z.inj_add, Nat2Z.inj_mul, !Nat2Z.inj_sub by lia. rewrite !Z2Nat.id; [exact Hl|lia|]. unfold u32. apply Z.mod_pos_bound. lia.
  Qed.
End Numeric.

Section Bits.
  Context (W rows cols : nat) (HW : W = 8%nat \/ W = 16%nat \/ W = 32%nat \/ W = 64%nat).
  Context (Hr : 0 < Z.of_nat rows < 4294967296) (Hc : 0 < Z.of_nat cols < 4294967296).
  Notation item := (Z.of_nat W / 8).
  Definition bits_usable : Prop :=
    Z.of_nat cols + 511 < 4294967296 /\ (Z.of_nat cols + 511) / 512 * (64 / item) * Z.of_nat rows < 4294967296.
  Lemma row_blocks_range : 0 <= row_blocks W cols < 4294967296.
  Proof. unfold row_blocks, u32. apply Z.mod_pos_bound. lia. Qed.
  Lemma bits_fit : bits_usable -> bm_fits W rows cols.
  Proof.
    intros [H1 H2]. split; [done|]. split; [done|]. split; [|done].
    pose proof (Z.div_mod (Z.of_nat cols + 511) 512 ltac:(lia)). pose proof (Z.mod_pos_bound (Z.of_nat cols + 511) 512 ltac:(lia)).
    destruct HW as [->|[->|[->| ->]]]; [change (64 / (Z.of_nat 8 / 8)) with 64|change (64 / (Z.of_nat 16 / 8)) with 32|change (64 / (Z.of_nat 32 / 8)) with 16|change (64 / (Z.of_nat 64 / 8)) with 8]; lia.
  Qed.
  Lemma bits_all : bits_usable -> forall r c, (r < rows)%nat -> (c < cols)%nat -> bm_test W (bm_new W rows cols) r c = Ret false.
  Proof.
    intros Hu r c H3 H4. destruct (bm_new_wf W rows cols (bits_fit Hu)) as (Hwf & Er & Ec & H0). rewrite <- (H0 r c).
    apply bm_test_spec; [lia|done|by rewrite Er|]. destruct Hwf as (Hw & _). rewrite Ec in Hw. lia.
  Qed.
  Lemma bits_last : ~ bits_usable -> bm_test W (bm_new W rows cols) (rows - 1) (cols - 1) = UB OutOfBounds.
  Proof.
    intros H. unfold bm_test, bm_block. rewrite vget_past; [done|]. unfold bm_new; cbn [bm_data bm_row_blocks]. rewrite replicate_length.
    pose proof row_blocks_range as Hrg.
    assert (0 <= Z.of_nat ((cols - 1) / W)) as Hq by lia.
    assert (row_blocks W cols < Z.of_nat ((cols - 1) / W) + 1 \/ 4294967296 <= row_blocks W cols * Z.of_nat rows) as Hor.
    { destruct (Z.le_gt_cases 4294967296 (Z.of_nat cols + 511)) as [Hb|Hb].
      - left. assert (row_blocks W cols = 0) as ->; [|lia]. unfold row_blocks. replace (u32 (Z.of_nat cols + 512 - 1) / 512) with 0; [done|]. symmetry. apply Z.div_small.
        pose proof (u32_drop (Z.of_nat cols + 512 - 1) ltac:(lia)). lia.
      - right. assert (row_blocks W cols = (Z.of_nat cols + 511) / 512 * (64 / item)) as ->.
        { unfold row_blocks. replace (Z.of_nat cols + 512 - 1) with (Z.of_nat cols + 511) by lia. rewrite (u32_small (Z.of_nat cols + 511)) by lia. apply u32_small.
          pose proof (Z.div_mod (Z.of_nat cols + 511) 512 ltac:(lia)). pose proof (Z.mod_pos_bound (Z.of_nat cols + 511) 512 ltac:(lia)).
          destruct HW as [->|[->|[->| ->]]]; [change (64 / (Z.of_nat 8 / 8)) with 64|change (64 / (Z.of_nat 16 / 8)) with 32|change (64 / (Z.of_nat 32 / 8)) with 16|change (64 / (Z.of_nat 64 / 8)) with 8]; lia. }
        apply Z.nlt_ge. intros Hn. apply H. by split. }
    pose proof (last_past (row_blocks W cols) (Z.of_nat rows) (Z.of_nat ((cols - 1) / W) + 1) Hrg ltac:(lia) ltac:(lia) Hor) as Hl.
    apply Nat2Z.inj_le. rewrite Nat2Z.inj_add, Nat2Z.inj_mul, Nat2Z.inj_sub by lia. rewrite !Z2Nat.id; [lia|lia|]. unfold u32. apply Z.mod_pos_bound. lia.
  Qed.
End Bits.
