(** * A concrete state with 70 features (two words, the second partial) for the kernels. *)
From Verif Require Export KernelProps.
From stdpp Require Import list.
Local Open Scope Z_scope.

(** automata: -5 .. 4, repeating *)
Definition k_row (d : Z) : list Z := map (fun c => (Z.of_nat c * 7 + d) mod 10 - 5) (seq 0 70) ++ replicate 58 0.
Definition k_m : nmatrix := NM 8 2 70 (k_row 0 ++ k_row 3).
Definition k_word (d : Z) (k : nat) (bits : nat) : N :=
  fold_right (fun c w => if 0 <=? (Z.of_nat (k * 64 + c) * 7 + d) mod 10 - 5 then N.setbit w (N.of_nat c) else w) 0%N (seq 0 bits).
Definition k_p : bmatrix := BM 2 70 8 ([k_word 0 0 64; k_word 0 1 6] ++ replicate 6 0%N ++ [k_word 3 0 64; k_word 3 1 6] ++ replicate 6 0%N).
Definition k_s : nmatrix * bmatrix := (k_m, k_p).
Definition k_X : bit_vector := BV 70 (12297829382473034410%N :: [42%N]).
Definition k_ct (q : nat) : list Z := map (fun c => if Nat.eqb (c mod q) 0 then 1 else 0) (seq 0 70).
Definition k_W (q : nat) : list N := map (fun k => fold_right (fun c w => if Nat.eqb ((k * 64 + c) mod q) 0 then N.setbit w (N.of_nat c) else w) 0%N (seq 0 (if Nat.eqb k 0 then 64 else 6))) [0%nat; 1%nat].

Lemma forall_range (P : nat -> bool) lo n : forallb P (seq lo n) = true -> forall c, (lo <= c < lo + n)%nat -> P c = true.
Proof. intros H c Hc. rewrite forallb_forall in H. apply H. apply in_seq. lia. Qed.

Lemma k_stored : stored 70 0 k_s /\ in_step k_s /\ fits 5 k_s.
Proof.
  assert (in_step k_s) as Hsy.
  { intros r c Hr Hc. cbn in Hr, Hc. 
    assert (forallb (fun c => Bool.eqb (bm_bit 64 k_p 0 c) (0 <=? nm_cell k_m 0 c) && Bool.eqb (bm_bit 64 k_p 1 c) (0 <=? nm_cell k_m 1 c)) (seq 0 70) = true) as Q by (vm_compute; reflexivity).
    pose proof (forall_range _ 0 70 Q c ltac:(lia)) as Q1. cbn beta in Q1. apply andb_true_iff in Q1 as [Q1 Q2]. apply eqb_prop in Q1, Q2.
    destruct r as [|[|r]]; [exact Q1|exact Q2|lia]. }
  split; [|split; [exact Hsy|vm_compute; discriminate]].
  split_and!; [|reflexivity|cbn; lia]. split_and!; [| |reflexivity|reflexivity].
  - split; [|split; [reflexivity|]].
    + split_and!; [split; [vm_compute; lia|vm_compute; reflexivity]| |vm_compute; reflexivity].
      intros r c Hc. change (nm_stride k_s.1) with (Z.to_nat (row_items 8 70)) in Hc. change (nm_cols k_s.1) with 70%nat in Hc.
      replace (Z.to_nat (row_items 8 70)) with 128%nat in Hc by (vm_compute; reflexivity).
      assert (forallb (fun c => (nm_cell k_m 0 c =? 0) && (nm_cell k_m 1 c =? 0)) (seq 70 58) = true) as Q by (vm_compute; reflexivity).
      pose proof (forall_range _ 70 58 Q c ltac:(lia)) as Q1. cbn beta in Q1. apply andb_true_iff in Q1 as [Q1 Q2]. apply Z.eqb_eq in Q1, Q2.
      destruct r as [|[|r]]; [exact Q1|exact Q2|].
      unfold nm_cell. rewrite lookup_ge_None_2; [reflexivity|].
      change (length (nm_data k_s.1)) with (length (k_row 0 ++ k_row 3)).
      replace (length (k_row 0 ++ k_row 3)) with 256%nat by (vm_compute; reflexivity).
      unfold nm_offset. replace (nm_stride k_s.1) with 128%nat by (vm_compute; reflexivity). lia.
    + intros r c Hr Hc. cbn in Hr, Hc.
      assert (forallb (fun c => (- 128 <=? nm_cell k_m 0 c) && (nm_cell k_m 0 c <? 128) && ((- 128 <=? nm_cell k_m 1 c) && (nm_cell k_m 1 c <? 128))) (seq 0 70) = true) as Q by (vm_compute; reflexivity).
      pose proof (forall_range _ 0 70 Q c ltac:(lia)) as Q1. cbn beta in Q1. rewrite !andb_true_iff, !Z.leb_le, !Z.ltb_lt in Q1.
      unfold in_w. change (nm_w k_s.1) with 8. change (2 ^ (8 - 1)) with 128. destruct r as [|[|r]]; [apply Q1|apply Q1|lia].
  - split_and!; [cbn; lia|reflexivity|].
    cbn [k_s snd k_p bm_data]. assert (forallb (fun b => N.ltb b (2 ^ 64)) (bm_data k_p) = true) as Q by (vm_compute; reflexivity).
    apply Forall_forall. intros b Hb. rewrite forallb_forall in Q. apply block_ok_lt. apply N.ltb_lt. apply Q. by apply elem_of_list_In.
Qed.
Lemma k_X_ok : bits_ok 70 k_X.
Proof.
  split_and!; [reflexivity|split; [reflexivity|]|].
  - repeat constructor; apply block_ok_lt; reflexivity.
  - intros q Hq. unfold bv_bit, k_X. cbn [bv_blocks].
    destruct (q / 64)%nat as [|[|d]] eqn:Ed.
    + exfalso. apply Nat.div_small_iff in Ed; lia.
    + cbn [lookup list_lookup]. apply N.bits_above_log2. change (N.log2 42) with 5%N.
      pose proof (Nat.div_mod q 64 ltac:(lia)) as Hq'. rewrite Ed in Hq'. lia.
    + cbn. done.
Qed.
Lemma k_zo q : zo_list 70 (k_ct q).
Proof.
  split; [unfold k_ct; by rewrite map_length, seq_length|]. apply Forall_forall. intros v Hv. apply elem_of_list_In, in_map_iff in Hv as (c & <- & _).
  destruct (Nat.eqb _ _); auto.
Qed.
Lemma k_packs : packs 70 (k_W 3) (k_ct 3) /\ packs 70 (k_W 5) (k_ct 5).
Proof.
  split; (split; [vm_compute; lia|]); intros c Hc.
  - assert (forallb (fun c => Bool.eqb (word_bit (k_W 3) c) (toss (k_ct 3) c)) (seq 0 70) = true) as Q by (vm_compute; reflexivity).
    apply eqb_prop. exact (forall_range _ 0 70 Q c ltac:(lia)).
  - assert (forallb (fun c => Bool.eqb (word_bit (k_W 5) c) (toss (k_ct 5) c)) (seq 0 70) = true) as Q by (vm_compute; reflexivity).
    apply eqb_prop. exact (forall_range _ 0 70 Q c ltac:(lia)).
Qed.
(** what a kernel does to the automata of one feature *)
Definition at_col (c : nat) (o : outcome (nmatrix * bmatrix)) : option (Z * bool * Z * bool) :=
  match o with Ret s => Some (nm_cell s.1 0 c, bm_bit 64 s.2 0 c, nm_cell s.1 1 c, bm_bit 64 s.2 1 c) | _ => None end.
Lemma k_silent : at_col 65 (Ret k_s) = Some (0, true, 3, true) /\
  at_col 65 (bw_block1_words 5 0 (k_W 5) (k_W 3) k_s) = Some (-1, false, 3, true).
Proof. split; vm_compute; reflexivity. Qed.
Lemma k_fired : at_col 69 (Ret k_s) = Some (-2, false, 1, true) /\
  at_col 69 (bw_block2_words true 5 0 k_X (k_W 3) (k_W 5) k_s) = Some (-1, false, 1, true) /\
  at_col 65 (bw_block2_words true 5 0 k_X (k_W 3) (k_W 5) k_s) = Some (1, true, 2, true).
Proof. split_and!; vm_compute; reflexivity. Qed.
Lemma k_type2 : at_col 62 (Ret k_s) = Some (-1, false, 2, true) /\ at_col 62 (bw_block3_ 70 0 k_X k_s) = Some (0, true, 2, true).
Proof. split; vm_compute; reflexivity. Qed.

(** number_of_states = 1: one feature, one clause, both literals included *)
Definition k1_m : nmatrix := NM 8 2 1 (replicate 128 0).
Definition k1_p : bmatrix := BM 2 1 8 ([1%N] ++ replicate 7 0%N ++ [1%N] ++ replicate 7 0%N).
Definition k1_s : nmatrix * bmatrix := (k1_m, k1_p).
Definition k1_X : bit_vector := BV 1 [1%N].
Lemma k1_ok : stored 1 0 k1_s /\ in_step k1_s /\ fits 1 k1_s /\ bits_ok 1 k1_X /\ zo_list 1 [0] /\ packs 1 [0%N] [0].
Proof.
  assert (forall r c, nm_cell k1_m r c = 0) as Hz.
  { intros r c. unfold nm_cell, k1_m. cbn [nm_data]. destruct (replicate 128 0 !! nm_offset _ r c) eqn:E; [|done].
    by apply lookup_replicate in E as [-> _]. }
  split_and!.
  - split_and!; [|reflexivity|cbn; lia]. split_and!; [| |reflexivity|reflexivity].
    + split; [|split; [reflexivity|]].
      * split_and!; [split; [vm_compute; lia|vm_compute; reflexivity]|intros r c _; apply Hz|vm_compute; reflexivity].
      * intros r c _ _. cbn [k1_s fst]. rewrite Hz. vm_compute. split; [discriminate|reflexivity].
    + split_and!; [cbn; lia|reflexivity|]. assert (forallb (fun b => N.ltb b (2 ^ 64)) (bm_data k1_p) = true) as Q by (vm_compute; reflexivity).
      apply Forall_forall. intros b Hb. rewrite forallb_forall in Q. apply block_ok_lt. apply N.ltb_lt. apply Q. by apply elem_of_list_In.
  - intros r c Hr Hc. cbn in Hr, Hc. cbn [k1_s fst snd]. rewrite Hz. assert (c = 0%nat) as -> by lia. destruct r as [|[|r]]; [reflexivity|reflexivity|lia].
  - vm_compute. discriminate.
  - split_and!; [reflexivity|split; [reflexivity|]|].
    + repeat constructor; apply block_ok_lt; reflexivity.
    + intros q Hq. unfold bv_bit, k1_X. cbn [bv_blocks]. destruct (q / 64)%nat as [|d] eqn:Ed; [|done].
      cbn [lookup list_lookup]. apply N.bits_above_log2. apply Nat.div_small_iff in Ed; [|lia]. rewrite Nat.mod_small by lia. change (N.log2 1) with 0%N. lia.
  - split; [done|]. repeat constructor.
  - split; [vm_compute; lia|]. intros c Hc. assert (c = 0%nat) as -> by lia. reflexivity.
Qed.
Lemma k1_differ : at_col 0 (bw_block2_words true 1 0 k1_X [0%N] [0%N] k1_s) = Some (0, true, 0, true) /\
  at_col 0 (bw_block2 true 1 0 k1_X [0] [0] k1_s) = Some (0, false, 0, true).
Proof. split; vm_compute; reflexivity. Qed.
Lemma one_state_differs : exists nf boost j X ct1 ct2 W1 W2 s,
  stored nf j s /\ in_step s /\ fits 1 s /\ bits_ok nf X /\ zo_list nf ct1 /\ zo_list nf ct2 /\ packs nf W1 ct1 /\ packs nf W2 ct2 /\
  exists s1 s2, bw_block2_words boost 1 j X W1 W2 s = Ret s1 /\ bw_block2 boost 1 j X ct1 ct2 s = Ret s2 /\
    in_step s1 /\ ~ in_step s2.
Proof.
  exists 1%nat, true, 0%nat, k1_X, [0], [0], [0%N], [0%N], k1_s. destruct k1_ok as (H1 & H2 & H3 & H4 & H5 & H6).
  split_and!; try done. destruct k1_differ as [E1 E2].
  destruct (bw_block2_words_spec 1 true 1 0 k1_X [0%N] [0%N] k1_s) as (s1 & Q1 & U1); [apply H1|apply H1|apply H1|done|vm_compute; lia|vm_compute; lia|vm_compute; split; discriminate|].
  destruct (bw_block2_spec true 1 0 1 k1_X [0] [0] k1_s) as (s2 & Q2 & U2); [apply H1|apply H1|apply H1|done|done|done|vm_compute; discriminate|].
  exists s1, s2. split; [exact Q1|]. split; [exact Q2|]. rewrite Q1 in E1. rewrite Q2 in E2. cbn [at_col] in E1, E2.
  destruct U1 as (_ & [(_ & Er1 & Ec1) _] & _), U2 as (_ & [(_ & Er2 & Ec2) _] & _).
  change (nm_rows k1_s.1) with 2%nat in *. change (nm_cols k1_s.1) with 1%nat in *.
  pose proof (f_equal (fun o => match o with Some q => q.1.1.1 | None => 1 end) E1) as A1. pose proof (f_equal (fun o => match o with Some q => q.1.1.2 | None => false end) E1) as A2.
  pose proof (f_equal (fun o => match o with Some q => q.1.2 | None => 1 end) E1) as A3. pose proof (f_equal (fun o => match o with Some q => q.2 | None => false end) E1) as A4.
  pose proof (f_equal (fun o => match o with Some q => q.1.1.1 | None => 1 end) E2) as B1. pose proof (f_equal (fun o => match o with Some q => q.1.1.2 | None => true end) E2) as B2.
  cbn beta iota in *. cbn [fst snd] in *. split.
  - intros r c Hr Hc. assert (c = 0%nat) as -> by lia. destruct r as [|[|r]]; [by rewrite A1, A2|by rewrite A3, A4|lia].
  - intros H. specialize (H 0%nat 0%nat ltac:(lia) ltac:(lia)). rewrite B1, B2 in H. discriminate H.
Qed.
