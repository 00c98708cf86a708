(** * C38: exactly which shapes of matrices are usable. *)
From Verif Require Import ContainersRefine HugeFacts.
Local Open Scope Z_scope.

(** A matrix of any positive 32-bit shape either can be used (every cell can be read, and is 0), or its last cell is outside the storage.
    The first holds exactly when the bytes of a row, rounded up to the alignment, and the number of items fit 32 bits.
    [w] : bits of an item. *)
Theorem C38_numeric_matrix : forall w rows cols, w = 8 \/ w = 16 \/ w = 32 ->
  0 < Z.of_nat rows < 4294967296 -> 0 < Z.of_nat cols < 4294967296 ->
  let fits := Z.of_nat cols * (w / 8) + 63 < 4294967296 /\ (Z.of_nat cols * (w / 8) + 63) / 64 * (64 / (w / 8)) * Z.of_nat rows < 4294967296 in
  (fits -> forall r c, (r < rows)%nat -> (c < cols)%nat -> nm_get (nm_new w rows cols) r c = Ret 0) /\
  (~ fits -> nm_get (nm_new w rows cols) (rows - 1) (cols - 1) = UB OutOfBounds).
Proof. intros w rows cols Hw Hr Hc. exact (conj (numeric_all w rows cols Hw) (numeric_last w rows cols Hw Hr Hc)). Qed.
Print Assumptions C38_numeric_matrix.

(** The same for bit matrices with blocks of [W] bits. *)
Theorem C38_bit_matrix : forall W rows cols, (W = 8 \/ W = 16 \/ W = 32 \/ W = 64)%nat ->
  0 < Z.of_nat rows < 4294967296 -> 0 < Z.of_nat cols < 4294967296 ->
  let fits := Z.of_nat cols + 511 < 4294967296 /\ (Z.of_nat cols + 511) / 512 * (64 / (Z.of_nat W / 8)) * Z.of_nat rows < 4294967296 in
  (fits -> forall r c, (r < rows)%nat -> (c < cols)%nat -> bm_test W (bm_new W rows cols) r c = Ret false) /\
  (~ fits -> bm_test W (bm_new W rows cols) (rows - 1) (cols - 1) = UB OutOfBounds).
Proof. intros W rows cols HW Hr Hc. exact (conj (bits_all W rows cols HW) (bits_last W rows cols HW Hr Hc)). Qed.
Print Assumptions C38_bit_matrix.

(** shapes of both kinds, for every width; the second are far from the largest dimensions *)
Example C38_example :
  (1000 * (8 / 8) + 63 < 4294967296 /\ (1000 * (8 / 8) + 63) / 64 * (64 / (8 / 8)) * 1000000 < 4294967296) /\
  ~ (64 * (8 / 8) + 63 < 4294967296 /\ (64 * (8 / 8) + 63) / 64 * (64 / (8 / 8)) * 67108864 < 4294967296) /\
  ~ (1073741824 * (32 / 8) + 63 < 4294967296 /\ (1073741824 * (32 / 8) + 63) / 64 * (64 / (32 / 8)) * 1 < 4294967296) /\
  ~ (1 + 511 < 4294967296 /\ (1 + 511) / 512 * (64 / (64 / 8)) * 536870912 < 4294967296).
Proof. split; [split; reflexivity|]. split; [intros [_ H]; discriminate H|]. split; [intros [H _]; discriminate H|intros [_ H]; discriminate H]. Qed.
