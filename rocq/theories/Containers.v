(** * Model of the containers of lib/include. Proofs are in ContainersFacts.v. *)
From Verif Require Export Base.
From Coq Require Export NArith.

(** ** basic_bit_vector.hpp

    Template parameter BlockType is modelled by its number of bits [W] (8, 16, 32, 64); the estimators use 64.
    Blocks are elements of N below 2^W. size_type (64 bit) is modelled by nat without wrap-around:
    a bit vector of 2^64 bits cannot be allocated. *)

(** basic_bit_vector.hpp:145-146 (members m_bit_length, m_vector) *)
Record bit_vector := BV { bv_len : nat; bv_blocks : list N }.

(** basic_bit_vector.hpp:69-73 set_mask: (block_type)1 << (pos % block_bits) *)
Definition set_mask (W pos : nat) : N := N.shiftl 1 (N.of_nat (pos mod W)).
(** complement of a block_type value *)
Definition bnot (W : nat) (b : N) : N := N.lxor b (N.ones (N.of_nat W)).
(** basic_bit_vector.hpp:75-79 clear_mask *)
Definition clear_mask (W pos : nat) : N := bnot W (set_mask W pos).
(** basic_bit_vector.hpp:81-85 xor_mask *)
Definition xor_mask (W pos : nat) (v : bool) : N := N.shiftl (if v then 1 else 0)%N (N.of_nat (pos mod W)).

(** number of blocks needed for [n] bits: (n + block_bits - 1) / block_bits *)
Definition blocks_for (W n : nat) : nat := (n + W - 1) / W.

(** basic_bit_vector.hpp:44-48 explicit constructor from a length; std::vector value-initialises to 0 *)
Definition bv_new (W len : nat) : bit_vector := BV len (replicate (blocks_for W len) 0%N).
(** basic_bit_vector.hpp:37-42 constructor from storage: length limited to the capacity *)
Definition bv_of_storage (W len : nat) (v : list N) : bit_vector := BV (min len (length v * W)) v.

(** basic_bit_vector.hpp:57-61, 63-67, 140-144 *)
Definition bv_capacity_blocks (v : bit_vector) : nat := length (bv_blocks v).
Definition bv_content_blocks (W : nat) (v : bit_vector) : nat := blocks_for W (bv_len v).
Definition bv_tail_bits (W : nat) (v : bit_vector) : nat := bv_len v mod W.

(** basic_bit_vector.hpp:87-92 operator[] *)
Definition bv_get (W : nat) (v : bit_vector) (pos : nat) : outcome bool :=
  let* b := vget (bv_blocks v) (pos / W) in
  Ret (negb (N.eqb (N.land b (set_mask W pos)) 0)).
(** basic_bit_vector.hpp:94-98 set *)
Definition bv_set (W : nat) (v : bit_vector) (pos : nat) : outcome bit_vector :=
  let* b := vget (bv_blocks v) (pos / W) in
  let* bl := vset (bv_blocks v) (pos / W) (N.lor b (set_mask W pos)) in
  Ret (BV (bv_len v) bl).
(** basic_bit_vector.hpp:100-104 clear *)
Definition bv_clear (W : nat) (v : bit_vector) (pos : nat) : outcome bit_vector :=
  let* b := vget (bv_blocks v) (pos / W) in
  let* bl := vset (bv_blocks v) (pos / W) (N.land b (clear_mask W pos)) in
  Ret (BV (bv_len v) bl).
(** basic_bit_vector.hpp:106-110 flip *)
Definition bv_flip (W : nat) (v : bit_vector) (pos : nat) : outcome bit_vector :=
  let* b := vget (bv_blocks v) (pos / W) in
  let* bl := vset (bv_blocks v) (pos / W) (N.lxor b (set_mask W pos)) in
  Ret (BV (bv_len v) bl).
(** basic_bit_vector.hpp:112-123 assign *)
Definition bv_assign (W : nat) (v : bit_vector) (pos : nat) (val : bool) : outcome bit_vector :=
  if val then bv_set W v pos else bv_clear W v pos.
(** basic_bit_vector.hpp:126-130 XOR *)
Definition bv_XOR (W : nat) (v : bit_vector) (pos : nat) (val : bool) : outcome bit_vector :=
  let* b := vget (bv_blocks v) (pos / W) in
  let* bl := vset (bv_blocks v) (pos / W) (N.lxor b (xor_mask W pos val)) in
  Ret (BV (bv_len v) bl).

(** basic_bit_vector_companion.hpp:19-42 from_range; the input range is a list of integers, `if ( *it)` tests non-zero *)
Definition bv_from_range (W : nat) (xs : list Z) : outcome bit_vector :=
  let rv := bv_of_storage W (length xs) (replicate (blocks_for W (length xs)) 0%N) in
  let* '(rv, _) :=
    ofold xs (rv, 0%nat) (fun x '(rv, pos) =>
      let* rv := (if (x =? 0)%Z then Ret rv else bv_set W rv pos) in Ret (rv, S pos)) in
  Ret rv.

(** ** basic_numeric_matrix.hpp (Alignment = 64)

    [nm_w] is the width in bits of ValueType: 8, 16 or 32 (int8_t, int16_t, int32_t). *)

(** basic_numeric_matrix.hpp:152-154 *)
Record nmatrix := NM { nm_w : Z; nm_rows : nat; nm_cols : nat; nm_data : list Z }.

(** basic_numeric_matrix.hpp:100-105 row_items, in 32-bit unsigned arithmetic *)
Definition row_items (w : Z) (cols : nat) : Z :=
  let item_size := (w / 8)%Z in
  u32 (u32 (u32 (Z.of_nat cols * item_size) + 64 - 1) / 64 * (64 / item_size)).
Definition nm_stride (m : nmatrix) : nat := Z.to_nat (row_items (nm_w m) (nm_cols m)).

(** basic_numeric_matrix.hpp:38-43 constructor: m_v(row_items() * nrows), 32-bit product *)
Definition nm_new (w : Z) (rows cols : nat) : nmatrix :=
  NM w rows cols (replicate (Z.to_nat (u32 (row_items w cols * Z.of_nat rows))) 0%Z).
(** basic_numeric_matrix.hpp:31-36 *)
Definition nm_empty (w : Z) : nmatrix := NM w 0 0 [].

(** basic_numeric_matrix.hpp:107-110 row_offset, 64-bit product of two 32-bit values *)
Definition nm_offset (m : nmatrix) (r c : nat) : nat := r * nm_stride m + c.
(** basic_numeric_matrix.hpp:112-120, 134-137: row_data(r)[c] *)
Definition nm_get (m : nmatrix) (r c : nat) : outcome Z := vget (nm_data m) (nm_offset m r c).
(** basic_numeric_matrix.hpp:139-142: row_data(r)[c] = v, conversion to the value type is modular *)
Definition nm_set (m : nmatrix) (r c : nat) (v : Z) : outcome nmatrix :=
  let* d := vset (nm_data m) (nm_offset m r c) (wrap_s (nm_w m) v) in
  Ret (NM (nm_w m) (nm_rows m) (nm_cols m) d).

(** ** basic_bit_matrix.hpp (BlockType of W bits, Alignment = 64) *)

(** basic_bit_matrix.hpp:291-294 *)
Record bmatrix := BM { bm_rows : nat; bm_cols : nat; bm_row_blocks : nat; bm_data : list N }.

(** basic_bit_matrix.hpp:125 m_row_blocks in 32-bit unsigned arithmetic *)
Definition row_blocks (W cols : nat) : Z :=
  u32 (u32 (Z.of_nat cols + 512 - 1) / 512 * (64 / (Z.of_nat W / 8))).
(** basic_bit_matrix.hpp:121-128 constructor *)
Definition bm_new (W rows cols : nat) : bmatrix :=
  BM rows cols (Z.to_nat (row_blocks W cols)) (replicate (Z.to_nat (u32 (row_blocks W cols * Z.of_nat rows))) 0%N).
(** basic_bit_matrix.hpp:112-119 *)
Definition bm_empty : bmatrix := BM 0 0 0 [].

(** basic_bit_matrix.hpp:207-211, 264-269: row_data(r)[k] *)
Definition bm_block (m : bmatrix) (r k : nat) : outcome N := vget (bm_data m) (r * bm_row_blocks m + k).
(** write through bit_view::data() *)
Definition bm_set_block (m : bmatrix) (r k : nat) (b : N) : outcome bmatrix :=
  let* d := vset (bm_data m) (r * bm_row_blocks m + k) b in
  Ret (BM (bm_rows m) (bm_cols m) (bm_row_blocks m) d).
(** basic_bit_matrix.hpp:225-232 test; also bit_view::test 77-81 *)
Definition bm_test (W : nat) (m : bmatrix) (r c : nat) : outcome bool :=
  let* b := bm_block m r (c / W) in
  Ret (negb (N.eqb (N.land b (set_mask W c)) 0)).
(** basic_bit_matrix.hpp:242-248 set; bit_view::set 59-63 *)
Definition bm_set (W : nat) (m : bmatrix) (r c : nat) : outcome bmatrix :=
  let* b := bm_block m r (c / W) in bm_set_block m r (c / W) (N.lor b (set_mask W c)).
(** basic_bit_matrix.hpp:234-240 clear; bit_view::clear 65-69 *)
Definition bm_clear (W : nat) (m : bmatrix) (r c : nat) : outcome bmatrix :=
  let* b := bm_block m r (c / W) in bm_set_block m r (c / W) (N.land b (clear_mask W c)).
(** basic_bit_matrix.hpp:250-256 flip; bit_view::flip 71-75 *)
Definition bm_flip (W : nat) (m : bmatrix) (r c : nat) : outcome bmatrix :=
  let* b := bm_block m r (c / W) in bm_set_block m r (c / W) (N.lxor b (set_mask W c)).
