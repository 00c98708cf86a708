(** * Lemmas about the container models *)
From Verif Require Export Containers.
From Coq Require Import Lia ZifyNat ZifyN.
Local Open Scope nat_scope.

(** ** index arithmetic *)
Lemma flat_inj s r c r' c' : c < s -> c' < s -> r * s + c = r' * s + c' -> r = r' /\ c = c'.
Proof.
  intros Hc Hc' E.
  assert (r = r') as ->.
  { assert ((r * s + c) / s = (r' * s + c') / s) as H by congruence.
    rewrite !(Nat.add_comm (_ * s)), !Nat.div_add, !Nat.div_small in H by lia. lia. }
  lia.
Qed.

Lemma flat_bound s n r c : r < n -> c < s -> r * s + c < n * s.
Proof. intros. assert (S r * s <= n * s) by (apply Nat.mul_le_mono_r; lia). simpl in *. lia. Qed.

Lemma divmod_inj W p q : 0 < W -> p / W = q / W -> p mod W = q mod W -> p = q.
Proof. intros HW E1 E2. rewrite (Nat.div_mod p W), (Nat.div_mod q W) by lia. by rewrite E1, E2. Qed.

Lemma div_lt_blocks W n pos : 0 < W -> pos < n -> pos / W < blocks_for W n.
Proof.
  intros HW Hp. unfold blocks_for.
  apply Nat.div_lt_upper_bound; [lia|].
  pose proof (Nat.div_mod (n + W - 1) W ltac:(lia)).
  pose proof (Nat.mod_upper_bound (n + W - 1) W ltac:(lia)). nia.
Qed.

Lemma blocks_for_bits W n : 0 < W -> n <= blocks_for W n * W.
Proof.
  intros HW. unfold blocks_for.
  pose proof (Nat.div_mod (n + W - 1) W ltac:(lia)).
  pose proof (Nat.mod_upper_bound (n + W - 1) W ltac:(lia)). nia.
Qed.
Lemma blocks_for_tight W n : 0 < W -> blocks_for W n * W < n + W.
Proof.
  intros HW. unfold blocks_for.
  pose proof (Nat.div_mod (n + W - 1) W ltac:(lia)).
  pose proof (Nat.mod_upper_bound (n + W - 1) W ltac:(lia)). nia.
Qed.

(** ** bits of masks *)
Lemma testbit_set_mask W pos k : N.testbit (set_mask W pos) k = N.eqb k (N.of_nat (pos mod W)).
Proof.
  unfold set_mask. rewrite N.shiftl_1_l, N.pow2_bits_eqb. apply N.eqb_sym.
Qed.

Lemma testbit_bnot W b k : (k < N.of_nat W)%N -> N.testbit (bnot W b) k = negb (N.testbit b k).
Proof.
  intros. unfold bnot. rewrite N.lxor_spec, N.ones_spec_low by done. by destruct (N.testbit b k).
Qed.

Lemma land_set_mask_nz W b pos :
  negb (N.eqb (N.land b (set_mask W pos)) 0) = N.testbit b (N.of_nat (pos mod W)).
Proof.
  destruct (N.testbit b (N.of_nat (pos mod W))) eqn:E.
  - apply negb_true_iff, N.eqb_neq. intros H.
    assert (N.testbit (N.land b (set_mask W pos)) (N.of_nat (pos mod W)) = true) as H2.
    { rewrite N.land_spec, E, testbit_set_mask, N.eqb_refl. done. }
    rewrite H, N.bits_0 in H2. done.
  - apply negb_false_iff, N.eqb_eq. apply N.bits_inj_0. intros k.
    rewrite N.land_spec, testbit_set_mask.
    destruct (N.eqb_spec k (N.of_nat (pos mod W))) as [->|]; [by rewrite E|by rewrite andb_false_r].
Qed.

(** A block value fits in W bits *)
Definition block_ok (W : nat) (b : N) : Prop := forall k, (N.of_nat W <= k)%N -> N.testbit b k = false.

Lemma block_ok_lt W b : block_ok W b <-> (b < 2 ^ N.of_nat W)%N.
Proof.
  split.
  - intros H. destruct (N.eq_dec b 0) as [->|Hb]; [apply N.neq_0_lt_0; by apply N.pow_nonzero|].
    apply N.log2_lt_pow2; [lia|].
    destruct (N.lt_ge_cases (N.log2 b) (N.of_nat W)) as [|Hge]; [done|].
    pose proof (N.bit_log2 b Hb) as E. rewrite H in E by done. done.
  - intros H k Hk. destruct (N.eq_dec b 0) as [->|Hb]; [apply N.bits_0|].
    apply N.bits_above_log2. apply N.log2_lt_pow2 in H; lia.
Qed.

Lemma block_ok_0 W : block_ok W 0.
Proof. intros k _. apply N.bits_0. Qed.
Lemma block_ok_set_mask W pos : 0 < W -> block_ok W (set_mask W pos).
Proof.
  intros HW k Hk. rewrite testbit_set_mask. apply N.eqb_neq.
  pose proof (Nat.mod_upper_bound pos W ltac:(lia)). lia.
Qed.
Lemma block_ok_lor W a b : block_ok W a -> block_ok W b -> block_ok W (N.lor a b).
Proof. intros Ha Hb k Hk. by rewrite N.lor_spec, Ha, Hb. Qed.
Lemma block_ok_lxor W a b : block_ok W a -> block_ok W b -> block_ok W (N.lxor a b).
Proof. intros Ha Hb k Hk. by rewrite N.lxor_spec, Ha, Hb. Qed.
Lemma block_ok_land_l W a b : block_ok W a -> block_ok W (N.land a b).
Proof. intros Ha k Hk. by rewrite N.land_spec, Ha. Qed.
Lemma block_ok_bnot W a : block_ok W a -> block_ok W (bnot W a).
Proof. intros Ha k Hk. unfold bnot. by rewrite N.lxor_spec, Ha, N.ones_spec_high. Qed.

(** ** bit vectors *)
Definition bv_bit (W : nat) (v : bit_vector) (pos : nat) : bool :=
  match bv_blocks v !! (pos / W) with
  | Some b => N.testbit b (N.of_nat (pos mod W))
  | None => false
  end.
(** storage covers the length and blocks are block_type values *)
Definition bv_wf (W : nat) (v : bit_vector) : Prop :=
  bv_len v <= length (bv_blocks v) * W /\ Forall (block_ok W) (bv_blocks v).

Lemma bv_pos_in W v pos : 0 < W -> bv_wf W v -> pos < length (bv_blocks v) * W -> pos / W < length (bv_blocks v).
Proof. intros. apply Nat.div_lt_upper_bound; lia. Qed.

Lemma bv_get_spec W v pos : 0 < W -> bv_wf W v -> pos < bv_len v -> bv_get W v pos = Ret (bv_bit W v pos).
Proof.
  intros HW Hwf Hp. unfold bv_get, bv_bit.
  assert (pos / W < length (bv_blocks v)) as Hlt by (apply bv_pos_in; auto; destruct Hwf; lia).
  destruct (vget_ret_lt _ _ Hlt) as (b & E & ->). simpl. by rewrite E, land_set_mask_nz.
Qed.

Lemma bv_update_spec W v pos g (val : bool -> bool) :
  0 < W -> bv_wf W v -> pos < bv_len v ->
  (forall b k, (k < N.of_nat W)%N -> N.testbit (g b) k = if N.eqb k (N.of_nat (pos mod W)) then val (N.testbit b k) else N.testbit b k) ->
  (forall b, block_ok W b -> block_ok W (g b)) ->
  exists v', (let* b := vget (bv_blocks v) (pos / W) in
              let* bl := vset (bv_blocks v) (pos / W) (g b) in
              Ret (BV (bv_len v) bl)) = Ret v' /\
    bv_wf W v' /\ bv_len v' = bv_len v /\ length (bv_blocks v') = length (bv_blocks v) /\
    forall q, bv_bit W v' q = if Nat.eqb q pos then val (bv_bit W v pos) else bv_bit W v q.
Proof.
  intros HW Hwf Hp Hg Hok.
  assert (pos / W < length (bv_blocks v)) as Hlt by (apply bv_pos_in; auto; destruct Hwf; lia).
  destruct (vget_ret_lt _ _ Hlt) as (b & E & ->). simpl.
  rewrite vset_ret by done. simpl. eexists; split; [done|]. split_and!; simpl; auto.
  - destruct Hwf as [Hl Hf]. split; simpl; [by rewrite insert_length|].
    apply Forall_insert; [done|]. apply Hok. eapply Forall_lookup_1; eauto.
  - by rewrite insert_length.
  - intros q. unfold bv_bit at 1; simpl.
    destruct (decide (q / W = pos / W)) as [Eq|Ne].
    + rewrite Eq, list_lookup_insert by done.
      pose proof (Nat.mod_upper_bound q W ltac:(lia)) as Hm.
      rewrite Hg by lia.
      destruct (Nat.eqb_spec q pos) as [->|Hqp].
      * rewrite N.eqb_refl. unfold bv_bit. by rewrite E.
      * destruct (N.eqb_spec (N.of_nat (q mod W)) (N.of_nat (pos mod W))) as [Em|_].
        { exfalso. apply Hqp. apply (divmod_inj W); lia. }
        unfold bv_bit. by rewrite Eq, E.
    + rewrite list_lookup_insert_ne by done.
      destruct (Nat.eqb_spec q pos) as [->|]; [done|]. done.
Qed.

Lemma testbit_lor_mask W pos b k :
  N.testbit (N.lor b (set_mask W pos)) k = if N.eqb k (N.of_nat (pos mod W)) then true else N.testbit b k.
Proof. rewrite N.lor_spec, testbit_set_mask. destruct (N.eqb _ _); by destruct (N.testbit b k). Qed.
Lemma testbit_land_mask W pos b k :
  (k < N.of_nat W)%N ->
  N.testbit (N.land b (clear_mask W pos)) k = if N.eqb k (N.of_nat (pos mod W)) then false else N.testbit b k.
Proof.
  intros Hk. unfold clear_mask. rewrite N.land_spec, testbit_bnot, testbit_set_mask by done.
  destruct (N.eqb _ _); by destruct (N.testbit b k).
Qed.
Lemma testbit_lxor_mask W pos b k :
  N.testbit (N.lxor b (set_mask W pos)) k = if N.eqb k (N.of_nat (pos mod W)) then negb (N.testbit b k) else N.testbit b k.
Proof. rewrite N.lxor_spec, testbit_set_mask. destruct (N.eqb _ _); by destruct (N.testbit b k). Qed.

Lemma bv_set_spec W v pos : 0 < W -> bv_wf W v -> pos < bv_len v ->
  exists v', bv_set W v pos = Ret v' /\ bv_wf W v' /\ bv_len v' = bv_len v /\
    length (bv_blocks v') = length (bv_blocks v) /\
    forall q, bv_bit W v' q = if Nat.eqb q pos then true else bv_bit W v q.
Proof.
  intros. apply (bv_update_spec W v pos (fun b => N.lor b (set_mask W pos)) (fun _ => true)); auto.
  - intros. apply testbit_lor_mask.
  - intros. apply block_ok_lor; auto. by apply block_ok_set_mask.
Qed.
Lemma bv_clear_spec W v pos : 0 < W -> bv_wf W v -> pos < bv_len v ->
  exists v', bv_clear W v pos = Ret v' /\ bv_wf W v' /\ bv_len v' = bv_len v /\
    length (bv_blocks v') = length (bv_blocks v) /\
    forall q, bv_bit W v' q = if Nat.eqb q pos then false else bv_bit W v q.
Proof.
  intros. apply (bv_update_spec W v pos (fun b => N.land b (clear_mask W pos)) (fun _ => false)); auto.
  - intros. by apply testbit_land_mask.
  - intros. by apply block_ok_land_l.
Qed.
Lemma bv_flip_spec W v pos : 0 < W -> bv_wf W v -> pos < bv_len v ->
  exists v', bv_flip W v pos = Ret v' /\ bv_wf W v' /\ bv_len v' = bv_len v /\
    length (bv_blocks v') = length (bv_blocks v) /\
    forall q, bv_bit W v' q = if Nat.eqb q pos then negb (bv_bit W v pos) else bv_bit W v q.
Proof.
  intros. apply (bv_update_spec W v pos (fun b => N.lxor b (set_mask W pos)) negb); auto.
  - intros. apply testbit_lxor_mask.
  - intros. apply block_ok_lxor; auto. by apply block_ok_set_mask.
Qed.
Lemma xor_mask_true W pos : xor_mask W pos true = set_mask W pos.
Proof. done. Qed.
Lemma xor_mask_false W pos : xor_mask W pos false = 0%N.
Proof. unfold xor_mask. apply N.shiftl_0_l. Qed.
Lemma bv_XOR_spec W v pos val : 0 < W -> bv_wf W v -> pos < bv_len v ->
  exists v', bv_XOR W v pos val = Ret v' /\ bv_wf W v' /\ bv_len v' = bv_len v /\
    length (bv_blocks v') = length (bv_blocks v) /\
    forall q, bv_bit W v' q = if Nat.eqb q pos then xorb val (bv_bit W v pos) else bv_bit W v q.
Proof.
  intros. apply (bv_update_spec W v pos (fun b => N.lxor b (xor_mask W pos val)) (xorb val)); auto.
  - intros b k Hk. destruct val.
    + rewrite xor_mask_true, testbit_lxor_mask. by destruct (N.eqb _ _).
    + rewrite xor_mask_false, N.lxor_0_r. destruct (N.eqb _ _); by destruct (N.testbit b k).
  - intros. apply block_ok_lxor; auto. destruct val; [rewrite xor_mask_true; by apply block_ok_set_mask|].
    rewrite xor_mask_false. apply block_ok_0.
Qed.
Lemma bv_assign_spec W v pos val : 0 < W -> bv_wf W v -> pos < bv_len v ->
  exists v', bv_assign W v pos val = Ret v' /\ bv_wf W v' /\ bv_len v' = bv_len v /\
    length (bv_blocks v') = length (bv_blocks v) /\
    forall q, bv_bit W v' q = if Nat.eqb q pos then val else bv_bit W v q.
Proof. intros. destruct val; [by apply bv_set_spec|by apply bv_clear_spec]. Qed.

Lemma Forall_replicate_block W n : Forall (block_ok W) (replicate n 0%N).
Proof. apply Forall_replicate, block_ok_0. Qed.

Lemma bv_of_storage_zero W n : 0 < W ->
  let v := bv_of_storage W n (replicate (blocks_for W n) 0%N) in
  bv_wf W v /\ bv_len v = n /\ length (bv_blocks v) = blocks_for W n /\ forall q, bv_bit W v q = false.
Proof.
  intros HW v. unfold v, bv_of_storage, bv_wf; simpl. rewrite replicate_length.
  pose proof (blocks_for_bits W n HW). split_and!; try lia.
  - apply Forall_replicate_block.
  - intros q. unfold bv_bit; simpl. destruct (_ !! _) eqn:E; [|done].
    apply lookup_replicate in E as [-> _]. apply N.bits_0.
Qed.

Lemma bv_from_range_spec W xs : 0 < W ->
  exists v, bv_from_range W xs = Ret v /\ bv_wf W v /\ bv_len v = length xs /\
    length (bv_blocks v) = blocks_for W (length xs) /\
    forall q, bv_bit W v q = match xs !! q with Some x => negb (x =? 0)%Z | None => false end.
Proof.
  intros HW. unfold bv_from_range; cbv zeta.
  destruct (bv_of_storage_zero W (length xs) HW) as (Hwf & Hlen & Hbl & Hbits).
  set (v0 := bv_of_storage _ _ _) in *.
  assert (forall ys pre v, xs = pre ++ ys -> bv_wf W v -> bv_len v = length xs ->
      length (bv_blocks v) = blocks_for W (length xs) ->
      (forall q, bv_bit W v q = match pre !! q with Some x => negb (x =? 0)%Z | None => false end) ->
      exists v' n, ofold ys (v, length pre) (fun x '(rv, pos) =>
        let* rv := (if (x =? 0)%Z then Ret rv else bv_set W rv pos) in Ret (rv, S pos)) = Ret (v', n) /\
        bv_wf W v' /\ bv_len v' = length xs /\ length (bv_blocks v') = blocks_for W (length xs) /\
        (forall q, bv_bit W v' q = match xs !! q with Some x => negb (x =? 0)%Z | None => false end)) as Hind.
  { induction ys as [|y ys IH]; intros pre v Hxs Hw Hl Hb Hq.
    - simpl. rewrite app_nil_r in Hxs. subst pre. eauto 10.
    - cbn [ofold].
      assert (exists v1, (if (y =? 0)%Z then Ret v else bv_set W v (length pre)) = Ret v1 /\
         bv_wf W v1 /\ bv_len v1 = length xs /\ length (bv_blocks v1) = blocks_for W (length xs) /\
         (forall q, bv_bit W v1 q = match (pre ++ [y]) !! q with Some x => negb (x =? 0)%Z | None => false end))
        as (v1 & E1 & Hw1 & Hl1 & Hb1 & Hq1).
      { destruct (y =? 0)%Z eqn:Ey.
        - exists v. split_and!; auto. intros q. rewrite Hq.
          destruct (decide (q < length pre)) as [Hlt|Hge].
          + by rewrite lookup_app_l.
          + rewrite lookup_app_r by lia. rewrite (lookup_ge_None_2 pre) by lia.
            destruct (q - length pre) eqn:Ed; simpl; [by rewrite Ey|done].
        - destruct (bv_set_spec W v (length pre)) as (v1 & E1 & Hw1 & Hl1 & Hb1 & Hq1); auto.
          { rewrite Hl, Hxs, app_length; simpl; lia. }
          exists v1. split_and!; auto; try congruence. intros q. rewrite Hq1.
          destruct (Nat.eqb_spec q (length pre)) as [->|Hne].
          + rewrite lookup_app_r, Nat.sub_diag by lia. simpl. by rewrite Ey.
          + rewrite Hq. destruct (decide (q < length pre)) as [Hlt|Hge].
            * by rewrite lookup_app_l.
            * rewrite lookup_app_r by lia. rewrite (lookup_ge_None_2 pre) by lia.
              destruct (q - length pre) eqn:Ed; simpl; [lia|done]. }
      rewrite E1. simpl.
      replace (S (length pre)) with (length (pre ++ [y])) by (rewrite app_length; simpl; lia).
      apply IH; auto. rewrite <- app_assoc. done. }
  destruct (Hind xs [] v0) as (v' & n & E & ? & ? & ? & ?); auto.
  change (length (@nil Z)) with 0 in E. rewrite E. simpl. eauto 10.
Qed.

(** ** numeric matrices *)
Definition nm_cell (m : nmatrix) (r c : nat) : Z := default 0%Z (nm_data m !! nm_offset m r c).
(** the storage has the right size *)
Definition nm_sized (m : nmatrix) : Prop :=
  nm_cols m <= nm_stride m /\ length (nm_data m) = nm_rows m * nm_stride m.
(** ... and the padding at the end of the rows is zero *)
Definition nm_pad0 (m : nmatrix) : Prop := forall r c, nm_cols m <= c < nm_stride m -> nm_cell m r c = 0%Z.
(** ... and it is what the constructor allocates for the shape *)
Definition nm_alloc (m : nmatrix) : Prop := length (nm_data m) = Z.to_nat (u32 (row_items (nm_w m) (nm_cols m) * Z.of_nat (nm_rows m))).
Definition nm_wf (m : nmatrix) : Prop := nm_sized m /\ nm_pad0 m /\ nm_alloc m.
Definition nm_same_shape (m m' : nmatrix) : Prop :=
  nm_w m' = nm_w m /\ nm_rows m' = nm_rows m /\ nm_cols m' = nm_cols m.

Lemma nm_same_stride m m' : nm_same_shape m m' -> nm_stride m' = nm_stride m.
Proof. intros (? & ? & ?). unfold nm_stride. congruence. Qed.

Lemma nm_get_sized m r c : nm_sized m -> r < nm_rows m -> c < nm_cols m -> nm_get m r c = Ret (nm_cell m r c).
Proof.
  intros [Hs Hl] Hr Hc. unfold nm_get, nm_cell.
  assert (nm_offset m r c < length (nm_data m)) as Hlt.
  { rewrite Hl. unfold nm_offset. apply flat_bound; lia. }
  destruct (vget_ret_lt _ _ Hlt) as (a & E & ->). by rewrite E.
Qed.

Lemma nm_get_spec m r c : nm_wf m -> r < nm_rows m -> c < nm_cols m -> nm_get m r c = Ret (nm_cell m r c).
Proof. intros [H _]. by apply nm_get_sized. Qed.

Lemma nm_set_spec m r c v : nm_wf m -> r < nm_rows m -> c < nm_cols m ->
  exists m', nm_set m r c v = Ret m' /\ nm_wf m' /\ nm_same_shape m m' /\
    forall r' c', c' < nm_cols m ->
      nm_cell m' r' c' = if Nat.eqb r' r && Nat.eqb c' c then wrap_s (nm_w m) v else nm_cell m r' c'.
Proof.
  intros [[Hs Hl] [Hpad Hal]] Hr Hc. unfold nm_set.
  assert (nm_offset m r c < length (nm_data m)) as Hlt.
  { rewrite Hl. unfold nm_offset. apply flat_bound; lia. }
  rewrite vset_ret by done. simpl. eexists; split; [done|]. split_and!; auto.
  - split; [split; simpl; [done|]; rewrite insert_length; exact Hl|].
    split; [|unfold nm_alloc; cbn [nm_data nm_w nm_cols nm_rows]; rewrite insert_length; exact Hal].
    intros r' c' Hc'. cbn [nm_cols] in Hc'. change (nm_stride _) with (nm_stride m) in Hc'. rewrite <- (Hpad r' c' Hc').
    unfold nm_cell; simpl. change (nm_offset _ r' c') with (nm_offset m r' c') at 1.
    rewrite list_lookup_insert_ne; [done|]. unfold nm_offset. intros E. apply flat_inj in E; lia.
  - done.
  - intros r' c' Hc'. unfold nm_cell at 1; simpl.
    change (nm_offset _ r' c') with (nm_offset m r' c') at 1.
    destruct (Nat.eqb_spec r' r) as [->|Hr'], (Nat.eqb_spec c' c) as [->|Hc2]; simpl.
    + by rewrite list_lookup_insert.
    + rewrite list_lookup_insert_ne; [done|]. unfold nm_offset. lia.
    + rewrite list_lookup_insert_ne; [done|]. unfold nm_offset. intros E.
      apply flat_inj in E; lia.
    + rewrite list_lookup_insert_ne; [done|]. unfold nm_offset. intros E.
      apply flat_inj in E; lia.
Qed.

(** The shape fits the 32-bit size arithmetic of the constructor *)
Definition nm_fits (w : Z) (rows cols : nat) : Prop :=
  (w = 8 \/ w = 16 \/ w = 32)%Z /\
  (Z.of_nat cols * (w / 8) + 63 < 4294967296)%Z /\
  ((Z.of_nat cols * (w / 8) + 63) / 64 * (64 / (w / 8)) * Z.of_nat rows < 4294967296)%Z /\
  ((Z.of_nat cols * (w / 8) + 63) / 64 * (64 / (w / 8)) < 4294967296)%Z.

Lemma u32_small z : (0 <= z < 4294967296)%Z -> u32 z = z.
Proof. intros. unfold u32. by rewrite Z.mod_small. Qed.

Lemma row_items_fits w rows cols : nm_fits w rows cols ->
  row_items w cols = ((Z.of_nat cols * (w / 8) + 63) / 64 * (64 / (w / 8)))%Z.
Proof.
  intros (Hw & H1 & _ & H3). unfold row_items; cbv zeta.
  assert (0 < w / 8)%Z by (destruct Hw as [->|[->| ->]]; reflexivity).
  rewrite (u32_small (Z.of_nat cols * (w / 8))) by nia.
  rewrite (u32_small (_ + 64 - 1)) by nia.
  replace (Z.of_nat cols * (w / 8) + 64 - 1)%Z with (Z.of_nat cols * (w / 8) + 63)%Z by lia.
  apply u32_small. split; [|lia].
  apply Z.mul_nonneg_nonneg; apply Z.div_pos; nia.
Qed.

Lemma row_items_ge w rows cols : nm_fits w rows cols -> (Z.of_nat cols <= row_items w cols)%Z.
Proof.
  intros H. rewrite (row_items_fits w rows cols H). destruct H as (Hw & _).
  destruct Hw as [->|[->| ->]].
  - change (8/8)%Z with 1%Z; change (64/1)%Z with 64%Z. rewrite Z.mul_1_r.
    pose proof (Z.div_mod (Z.of_nat cols + 63) 64 ltac:(lia)).
    pose proof (Z.mod_pos_bound (Z.of_nat cols + 63) 64 ltac:(lia)). lia.
  - change (16/8)%Z with 2%Z; change (64/2)%Z with 32%Z.
    pose proof (Z.div_mod (Z.of_nat cols * 2 + 63) 64 ltac:(lia)).
    pose proof (Z.mod_pos_bound (Z.of_nat cols * 2 + 63) 64 ltac:(lia)). lia.
  - change (32/8)%Z with 4%Z; change (64/4)%Z with 16%Z.
    pose proof (Z.div_mod (Z.of_nat cols * 4 + 63) 64 ltac:(lia)).
    pose proof (Z.mod_pos_bound (Z.of_nat cols * 4 + 63) 64 ltac:(lia)). lia.
Qed.

Lemma nm_new_cell w rows cols r c : nm_cell (nm_new w rows cols) r c = 0%Z.
Proof.
  unfold nm_cell, nm_new; simpl. destruct (replicate _ _ !! _) eqn:E; [|done]. apply lookup_replicate in E as [-> _]. done.
Qed.
Lemma nm_new_wf w rows cols : nm_fits w rows cols ->
  nm_wf (nm_new w rows cols) /\ nm_rows (nm_new w rows cols) = rows /\ nm_cols (nm_new w rows cols) = cols /\
  nm_w (nm_new w rows cols) = w /\ forall r c, nm_cell (nm_new w rows cols) r c = 0%Z.
Proof.
  intros H. pose proof (row_items_fits w rows cols H) as Er. pose proof (row_items_ge w rows cols H) as Hge.
  split_and!; try done.
  - split; [|split; [intros r c _; apply nm_new_cell|unfold nm_alloc, nm_new; cbn [nm_data nm_w nm_cols nm_rows]; by rewrite replicate_length]]. unfold nm_sized, nm_stride, nm_new; simpl. split; [lia|].
    rewrite replicate_length. rewrite u32_small.
    + rewrite Z2Nat.inj_mul by lia. rewrite Nat2Z.id. lia.
    + rewrite Er. destruct H as (_ & _ & H2 & _). split; [|done]. rewrite <- Er. nia.
  - apply nm_new_cell.
Qed.

(** rows start at a multiple of 64 bytes *)
Lemma nm_row_aligned w rows cols r : nm_fits w rows cols ->
  ((Z.of_nat (nm_offset (nm_new w rows cols) r 0) * (w / 8)) mod 64 = 0)%Z.
Proof.
  intros H. unfold nm_offset, nm_stride; simpl. rewrite (row_items_fits w rows cols H).
  destruct H as (Hw & _).
  set (q := ((Z.of_nat cols * (w / 8) + 63) / 64)%Z).
  assert (0 <= q)%Z by (unfold q; apply Z.div_pos; [assert (0 < w / 8)%Z by (destruct Hw as [->|[->| ->]]; reflexivity); nia|lia]).
  rewrite Nat.add_0_r, Nat2Z.inj_mul, Z2Nat.id by (apply Z.mul_nonneg_nonneg; [done|destruct Hw as [->|[->| ->]]; done]).
  replace (Z.of_nat r * (q * (64 / (w / 8))) * (w / 8))%Z with (Z.of_nat r * q * ((64 / (w / 8)) * (w / 8)))%Z by ring.
  replace ((64 / (w / 8)) * (w / 8))%Z with 64%Z by (destruct Hw as [->|[->| ->]]; reflexivity).
  apply Z.mod_mul; lia.
Qed.

(** ** bit matrices *)
Definition bm_bit (W : nat) (m : bmatrix) (r c : nat) : bool :=
  match bm_data m !! (r * bm_row_blocks m + c / W) with
  | Some b => N.testbit b (N.of_nat (c mod W))
  | None => false
  end.
Definition bm_wf (W : nat) (m : bmatrix) : Prop :=
  bm_cols m <= bm_row_blocks m * W /\ length (bm_data m) = bm_rows m * bm_row_blocks m /\
  Forall (block_ok W) (bm_data m).
Definition bm_same_shape (m m' : bmatrix) : Prop :=
  bm_rows m' = bm_rows m /\ bm_cols m' = bm_cols m /\ bm_row_blocks m' = bm_row_blocks m.
(** all bits of a row past the last column are zero (for all blocks of the row) *)
Definition bm_clear_padding (W : nat) (m : bmatrix) : Prop :=
  forall r c, r < bm_rows m -> bm_cols m <= c < bm_row_blocks m * W -> bm_bit W m r c = false.

Lemma bm_col_in W m c : 0 < W -> bm_wf W m -> c < bm_row_blocks m * W -> c / W < bm_row_blocks m.
Proof. intros. apply Nat.div_lt_upper_bound; lia. Qed.

Lemma bm_block_spec W m r k : 0 < W -> bm_wf W m -> r < bm_rows m -> k < bm_row_blocks m ->
  exists b, bm_block m r k = Ret b /\ block_ok W b /\
    forall j, j < W -> N.testbit b (N.of_nat j) = bm_bit W m r (k * W + j).
Proof.
  intros HW (Hc & Hl & Hf) Hr Hk. unfold bm_block.
  assert (r * bm_row_blocks m + k < length (bm_data m)) as Hlt.
  { rewrite Hl. apply flat_bound; lia. }
  destruct (vget_ret_lt _ _ Hlt) as (b & E & ->). exists b. split_and!; auto.
  - eapply Forall_lookup_1; eauto.
  - intros j Hj. unfold bm_bit.
    rewrite Nat.div_add_l, Nat.div_small, Nat.add_0_r by lia. rewrite E.
    rewrite Nat.add_comm, Nat.mod_add, Nat.mod_small by lia. done.
Qed.

(** Writing a block changes exactly the bits of this block. *)
Lemma bm_set_block_spec W m r k b : 0 < W -> bm_wf W m -> r < bm_rows m -> k < bm_row_blocks m -> block_ok W b ->
  exists m', bm_set_block m r k b = Ret m' /\ bm_wf W m' /\ bm_same_shape m m' /\
    forall r' c', c' < bm_row_blocks m * W ->
      bm_bit W m' r' c' = if Nat.eqb r' r && Nat.eqb (c' / W) k then N.testbit b (N.of_nat (c' mod W)) else bm_bit W m r' c'.
Proof.
  intros HW (Hc & Hl & Hf) Hr Hk Hb. unfold bm_set_block.
  assert (r * bm_row_blocks m + k < length (bm_data m)) as Hlt.
  { rewrite Hl. apply flat_bound; lia. }
  rewrite vset_ret by done. simpl. eexists; split; [done|]. split_and!; auto.
  - unfold bm_wf; simpl. split_and!; auto. { by rewrite insert_length. } by apply Forall_insert.
  - done.
  - intros r' c' Hc'. unfold bm_bit at 1; simpl.
    assert (c' / W < bm_row_blocks m) by (apply Nat.div_lt_upper_bound; lia).
    destruct (Nat.eqb_spec r' r) as [->|Hr'], (Nat.eqb_spec (c' / W) k) as [Ek|Hk2]; simpl.
    + by rewrite Ek, list_lookup_insert.
    + rewrite list_lookup_insert_ne; [done|]. lia.
    + rewrite list_lookup_insert_ne; [done|]. intros E. apply flat_inj in E; lia.
    + rewrite list_lookup_insert_ne; [done|]. intros E. apply flat_inj in E; lia.
Qed.

Lemma bm_update_spec W m r c g (val : bool -> bool) :
  0 < W -> bm_wf W m -> r < bm_rows m -> c < bm_row_blocks m * W ->
  (forall b k, (k < N.of_nat W)%N -> N.testbit (g b) k = if N.eqb k (N.of_nat (c mod W)) then val (N.testbit b k) else N.testbit b k) ->
  (forall b, block_ok W b -> block_ok W (g b)) ->
  exists m', (let* b := bm_block m r (c / W) in bm_set_block m r (c / W) (g b)) = Ret m' /\
    bm_wf W m' /\ bm_same_shape m m' /\
    forall r' c', c' < bm_row_blocks m * W ->
      bm_bit W m' r' c' = if Nat.eqb r' r && Nat.eqb c' c then val (bm_bit W m r c) else bm_bit W m r' c'.
Proof.
  intros HW Hwf Hr Hc Hg Hok.
  assert (c / W < bm_row_blocks m) as Hk by (apply Nat.div_lt_upper_bound; lia).
  destruct (bm_block_spec W m r (c / W) HW Hwf Hr Hk) as (b & E & Hb & Hbits). rewrite E; cbn [obind].
  destruct (bm_set_block_spec W m r (c / W) (g b) HW Hwf Hr Hk (Hok _ Hb)) as (m' & E' & Hwf' & Hsh & Hb').
  exists m'. split_and!; auto. intros r' c' Hc'. rewrite Hb' by done.
  pose proof (Nat.mod_upper_bound c' W ltac:(lia)) as Hm.
  destruct (Nat.eqb_spec r' r) as [->|], (Nat.eqb_spec (c' / W) (c / W)) as [Ek|Hne]; simpl; auto.
  - rewrite Hg by lia.
    rewrite (Hbits (c' mod W)) by done.
    replace (c / W * W + c' mod W) with c' by (rewrite <- Ek; rewrite (Nat.div_mod c' W) at 1; lia).
    destruct (Nat.eqb_spec c' c) as [->|Hcc].
    + by rewrite N.eqb_refl.
    + destruct (N.eqb_spec (N.of_nat (c' mod W)) (N.of_nat (c mod W))) as [Em|]; [|done].
      exfalso. apply Hcc. apply (divmod_inj W); lia.
  - destruct (Nat.eqb_spec c' c) as [->|]; [done|done].
Qed.

Lemma bm_test_spec W m r c : 0 < W -> bm_wf W m -> r < bm_rows m -> c < bm_row_blocks m * W ->
  bm_test W m r c = Ret (bm_bit W m r c).
Proof.
  intros HW Hwf Hr Hc. unfold bm_test.
  assert (c / W < bm_row_blocks m) as Hk by (apply Nat.div_lt_upper_bound; lia).
  destruct (bm_block_spec W m r (c / W) HW Hwf Hr Hk) as (b & -> & Hb & Hbits). cbn [obind].
  rewrite land_set_mask_nz, Hbits by (apply Nat.mod_upper_bound; lia).
  do 2 f_equal. rewrite (Nat.div_mod c W) at 3; lia.
Qed.
Lemma bm_set_spec W m r c : 0 < W -> bm_wf W m -> r < bm_rows m -> c < bm_row_blocks m * W ->
  exists m', bm_set W m r c = Ret m' /\ bm_wf W m' /\ bm_same_shape m m' /\
    forall r' c', c' < bm_row_blocks m * W ->
      bm_bit W m' r' c' = if Nat.eqb r' r && Nat.eqb c' c then true else bm_bit W m r' c'.
Proof.
  intros. apply (bm_update_spec W m r c (fun b => N.lor b (set_mask W c)) (fun _ => true)); auto.
  - intros. apply testbit_lor_mask.
  - intros. apply block_ok_lor; auto. by apply block_ok_set_mask.
Qed.
Lemma bm_clear_spec W m r c : 0 < W -> bm_wf W m -> r < bm_rows m -> c < bm_row_blocks m * W ->
  exists m', bm_clear W m r c = Ret m' /\ bm_wf W m' /\ bm_same_shape m m' /\
    forall r' c', c' < bm_row_blocks m * W ->
      bm_bit W m' r' c' = if Nat.eqb r' r && Nat.eqb c' c then false else bm_bit W m r' c'.
Proof.
  intros. apply (bm_update_spec W m r c (fun b => N.land b (clear_mask W c)) (fun _ => false)); auto.
  - intros. by apply testbit_land_mask.
  - intros. by apply block_ok_land_l.
Qed.
Lemma bm_flip_spec W m r c : 0 < W -> bm_wf W m -> r < bm_rows m -> c < bm_row_blocks m * W ->
  exists m', bm_flip W m r c = Ret m' /\ bm_wf W m' /\ bm_same_shape m m' /\
    forall r' c', c' < bm_row_blocks m * W ->
      bm_bit W m' r' c' = if Nat.eqb r' r && Nat.eqb c' c then negb (bm_bit W m r c) else bm_bit W m r' c'.
Proof.
  intros. apply (bm_update_spec W m r c (fun b => N.lxor b (set_mask W c)) negb); auto.
  - intros. apply testbit_lxor_mask.
  - intros. apply block_ok_lxor; auto. by apply block_ok_set_mask.
Qed.

Definition bm_fits (W rows cols : nat) : Prop :=
  (W = 8 \/ W = 16 \/ W = 32 \/ W = 64) /\
  (Z.of_nat cols + 511 < 4294967296)%Z /\
  ((Z.of_nat cols + 511) / 512 * (64 / (Z.of_nat W / 8)) < 4294967296)%Z /\
  ((Z.of_nat cols + 511) / 512 * (64 / (Z.of_nat W / 8)) * Z.of_nat rows < 4294967296)%Z.

Lemma row_blocks_fits W rows cols : bm_fits W rows cols ->
  row_blocks W cols = ((Z.of_nat cols + 511) / 512 * (64 / (Z.of_nat W / 8)))%Z /\
  (Z.of_nat cols <= row_blocks W cols * Z.of_nat W)%Z /\ (0 <= row_blocks W cols)%Z.
Proof.
  intros (HW & H1 & H2 & H3).
  assert (row_blocks W cols = ((Z.of_nat cols + 511) / 512 * (64 / (Z.of_nat W / 8)))%Z) as E.
  { unfold row_blocks. replace (Z.of_nat cols + 512 - 1)%Z with (Z.of_nat cols + 511)%Z by lia.
    rewrite (u32_small (Z.of_nat cols + 511)) by lia. apply u32_small. split; [|done].
    apply Z.mul_nonneg_nonneg; [apply Z.div_pos; lia|].
    destruct HW as [->|[->|[->| ->]]]; simpl; done. }
  split; [done|]. rewrite E.
  pose proof (Z.div_mod (Z.of_nat cols + 511) 512 ltac:(lia)).
  pose proof (Z.mod_pos_bound (Z.of_nat cols + 511) 512 ltac:(lia)).
  pose proof (Z.div_pos (Z.of_nat cols + 511) 512 ltac:(lia) ltac:(lia)).
  destruct HW as [->|[->|[->| ->]]].
  - change (64 / (Z.of_nat 8 / 8))%Z with 64%Z; change (Z.of_nat 8) with 8%Z; lia.
  - change (64 / (Z.of_nat 16 / 8))%Z with 32%Z; change (Z.of_nat 16) with 16%Z; lia.
  - change (64 / (Z.of_nat 32 / 8))%Z with 16%Z; change (Z.of_nat 32) with 32%Z; lia.
  - change (64 / (Z.of_nat 64 / 8))%Z with 8%Z; change (Z.of_nat 64) with 64%Z; lia.
Qed.

Lemma bm_new_wf W rows cols : bm_fits W rows cols ->
  let m := bm_new W rows cols in
  bm_wf W m /\ bm_rows m = rows /\ bm_cols m = cols /\ forall r c, bm_bit W m r c = false.
Proof.
  intros H m. destruct (row_blocks_fits W rows cols H) as (E & Hge & H0).
  split_and!; try done.
  - unfold bm_wf, m, bm_new; simpl. split_and!.
    + nia.
    + rewrite replicate_length, u32_small.
      * rewrite Z2Nat.inj_mul by lia. rewrite Nat2Z.id. lia.
      * rewrite E. destruct H as (_ & _ & _ & H3). split; [|done]. rewrite <- E. nia.
    + apply Forall_replicate_block.
  - intros r c. unfold bm_bit, m, bm_new; simpl. destruct (replicate _ _ !! _) eqn:Er; [|done].
    apply lookup_replicate in Er as [-> _]. apply N.bits_0.
Qed.
