(** * Property theorems about the containers: C36, C37, C38. *)
From Verif Require Import ContainersRefine.

(** C36: a bit vector made by from_range from [xs] and then used through any sequence of in-range get / set / clear /
    flip / assign / XOR operations behaves exactly as the list of booleans [x <> 0]: every operation succeeds, reads
    return the same values, the final bits are the same, the length never changes, all bits past the length are zero. *)
Theorem C36_bit_vector_is_a_boolean_sequence : forall W xs os,
  0 < W -> Forall (fun o => bv_op_pos o < length xs) os ->
  exists v0 v, bv_from_range W xs = Ret v0 /\
    bv_run W v0 os = Ret ((seq_run (map (fun x => negb (x =? 0)%Z) xs) os).1, v) /\
    bv_abs W v (seq_run (map (fun x => negb (x =? 0)%Z) xs) os).2 /\ bv_clean W v /\ bv_len v = length xs.
Proof. intros W xs os HW. exact (bv_refines W HW xs os). Qed.
Print Assumptions C36_bit_vector_is_a_boolean_sequence.
Example C36_example :
  let os := [BvSet 1; BvFlip 9; BvXor 0 true; BvAssign 3 false; BvGet 9; BvGet 0; BvClear 1; BvGet 1] in
  Forall (fun o => bv_op_pos o < length [0; 0; 5; 1; 0; 0; 0; 0; 0; 0]%Z) os /\
  (let* v := bv_from_range 8 [0; 0; 5; 1; 0; 0; 0; 0; 0; 0]%Z in bv_run 8 v os)
    = Ret ([true; true; false], BV 10 [5; 2]%N).
Proof. split; [repeat (constructor; [simpl; lia|]); constructor|vm_compute; reflexivity]. Qed.

(** the same for the two constructors: from a length (all bits false), and from a length and blocks, where the length is limited to what the
    blocks hold and bit [i] is bit [i mod W] of block [i / W] *)
Theorem C36_from_length : forall W len os, 0 < W -> Forall (fun o => bv_op_pos o < len) os ->
  exists v, bv_run W (bv_new W len) os = Ret ((seq_run (replicate len false) os).1, v) /\
    bv_abs W v (seq_run (replicate len false) os).2 /\ bv_clean W v /\ bv_len v = len.
Proof. intros W len os HW. exact (bv_new_refines W HW len os). Qed.
Print Assumptions C36_from_length.
Theorem C36_from_blocks : forall W len blocks os, 0 < W -> Forall (fun b => (b < 2 ^ N.of_nat W)%N) blocks ->
  let n := min len (length blocks * W) in
  let bits := map (fun i => N.testbit (nth (i / W) blocks 0%N) (N.of_nat (i mod W))) (seq 0 n) in
  Forall (fun o => bv_op_pos o < n) os ->
  exists v, bv_run W (bv_of_storage W len blocks) os = Ret ((seq_run bits os).1, v) /\ bv_abs W v (seq_run bits os).2 /\ bv_len v = n.
Proof. intros W len blocks os HW. exact (bv_of_storage_refines W HW len blocks os). Qed.
Print Assumptions C36_from_blocks.
Example C36_from_blocks_example : Forall (fun b => (b < 2 ^ N.of_nat 8)%N) [5; 130]%N /\
  bv_run 8 (bv_of_storage 8 1000 [5; 130]%N) [BvGet 0; BvGet 1; BvGet 15; BvFlip 1; BvGet 1] = Ret ([true; false; true; true], BV 16 [7; 130]%N).
Proof. split; [repeat constructor|vm_compute; reflexivity]. Qed.

(** C37: a numeric matrix whose size fits the 32-bit size arithmetic behaves under any sequence of in-range reads and
    updates as a table of integers stored modulo the cell width: every access succeeds, an update changes its own
    cell only. *)
Theorem C37_numeric_matrix_is_a_table : forall w rows cols os,
  nm_fits w rows cols -> Forall (m_in rows cols) os ->
  exists m, nm_run (nm_new w rows cols) os = Ret ((tab_run (fun _ _ => 0%Z) (map (stored w) os)).1, m) /\
    nm_w m = w /\ nm_rows m = rows /\ nm_cols m = cols /\
    forall r c, r < rows -> c < cols -> nm_get m r c = Ret ((tab_run (fun _ _ => 0%Z) (map (stored w) os)).2 r c).
Proof. exact nm_refines. Qed.
Print Assumptions C37_numeric_matrix_is_a_table.
(** C37: the same for bit matrices; the padding bits of a row stay zero. *)
Theorem C37_bit_matrix_is_a_table : forall W rows cols os,
  bm_fits W rows cols -> Forall (fun o => m_in rows cols (bm_as o)) os ->
  exists m, bm_run W (bm_new W rows cols) os = Ret ((tab_run (fun _ _ => false) (map bm_as os)).1, m) /\
    bm_rows m = rows /\ bm_cols m = cols /\
    (forall r c, r < rows -> c < cols -> bm_test W m r c = Ret ((tab_run (fun _ _ => false) (map bm_as os)).2 r c)) /\
    (forall r c, r < rows -> cols <= c < bm_row_blocks m * W -> bm_test W m r c = Ret false).
Proof. exact bm_refines. Qed.
Print Assumptions C37_bit_matrix_is_a_table.
(** C37: the byte offset of every row from the (64-byte aligned) start of the storage is a multiple of 64. *)
Theorem C37_numeric_rows_aligned : forall w rows cols r, nm_fits w rows cols ->
  ((Z.of_nat (nm_offset (nm_new w rows cols) r 0) * (w / 8)) mod 64 = 0)%Z.
Proof. exact nm_row_aligned. Qed.
Print Assumptions C37_numeric_rows_aligned.
Theorem C37_bit_rows_aligned : forall W rows cols r, bm_fits W rows cols ->
  ((Z.of_nat (r * bm_row_blocks (bm_new W rows cols)) * (Z.of_nat W / 8)) mod 64 = 0)%Z.
Proof. exact bm_row_aligned. Qed.
Print Assumptions C37_bit_rows_aligned.
Example C37_example : nm_fits 8 6 70 /\ bm_fits 64 6 70 /\
  (let* '(r, _) := nm_run (nm_new 8 6 70) [MPut 2 69 (fun _ => 200%Z); MPut 3 0 (fun v => v + 1)%Z; MGet 2 69; MGet 3 0] in Ret r)
    = Ret [-56; 1]%Z.
Proof. split; [|split; [|vm_compute; reflexivity]]; unfold nm_fits, bm_fits; split; auto; vm_compute; done. Qed.

(** C38 is false: for some shape with positive 32-bit dimensions even the first cell is out of bounds. *)
Theorem C38_huge_matrices_refuted : exists rows cols,
  (Z.of_nat rows < 4294967296)%Z /\ (Z.of_nat cols < 4294967296)%Z /\ 0 < rows /\ 0 < cols /\
  nm_get (nm_new 8 rows cols) 0 0 = UB OutOfBounds.
Proof. exact nm_huge. Qed.
Print Assumptions C38_huge_matrices_refuted.
