(** * Model of the feedback kernels of lib/src/tsetlini_algo_bitwise.hpp that exist beside the ones the estimators call:
      one feature at a time or one block of 64 features at a time.  The kernels in use are in Algo.v.  Proofs are elsewhere. *)
From Verif Require Export Algo.
Local Open Scope Z_scope.

(** bool converted to a block *)
Definition b2n (b : bool) : N := if b then 1%N else 0%N.

(** tsetlini_algo_bitwise.hpp:410-470 block1 (char coin tosses) *)
Definition bw_block1 (nf : nat) (N : Z) (j : nat) (ct1 ct2 : list Z) (mp : nmatrix * bmatrix) : outcome (nmatrix * bmatrix) :=
  ofor 0 nf mp (fun fidx mp =>
    let* c1 := vget ct1 fidx in
    let* mp := (if negb (c1 =? 0) then bw_dec_cell N (2 * j + 0) fidx mp.1 mp.2 else Ret mp) in
    let* c2 := vget ct2 fidx in
    if negb (c2 =? 0) then bw_dec_cell N (2 * j + 1) fidx mp.1 mp.2 else Ret mp).

(** tsetlini_algo_bitwise.hpp:574-575, 752-753: the last two statements of process_block *)
Definition xor_blocks (j k : nat) (p : bmatrix) (pflip nflip : N) : outcome bmatrix :=
  let* b := bm_block p (2 * j + 0) k in
  let* p := bm_set_block p (2 * j + 0) k (N.lxor b pflip) in
  let* b := bm_block p (2 * j + 1) k in
  bm_set_block p (2 * j + 1) k (N.lxor b nflip).

(** 579-588, 756-765: all full blocks, then the last one if the number of features is not a multiple of 64 *)
Definition for_blocks (nf : nat) (process : nat -> nat -> nmatrix * bmatrix -> outcome (nmatrix * bmatrix)) (mp : nmatrix * bmatrix)
  : outcome (nmatrix * bmatrix) :=
  let tail := (nf mod 64)%nat in
  let full := (blocks_for 64 nf - (if Nat.eqb tail 0 then 0 else 1))%nat in
  let* mp := ofor 0 full mp (fun k mp => process k 64%nat mp) in
  if Nat.eqb tail 0 then Ret mp else process full tail mp.

(** 558-572 the loop of process_block of block1 (blockwise). The new state is converted back to the type of the matrix by [nm_set];
    state: matrix, pos_dec, neg_dec, pos_polarity_flip, neg_polarity_flip *)
Definition block1_bits (Ns : Z) (j k bits : nat) (m : nmatrix) (pos_dec neg_dec : N) : outcome (nmatrix * N * N * N * N) :=
  ofor 0 bits (m, pos_dec, neg_dec, 0%N, 0%N) (fun bix '(m, pos_dec, neg_dec, pflip, nflip) =>
    let c := (k * 64 + bix)%nat in
    let* p := nm_get m (2 * j + 0) c in
    let* n := nm_get m (2 * j + 1) c in
    let pos_bit := N.land pos_dec (b2n (- Ns <? p)) in
    let neg_bit := N.land neg_dec (b2n (- Ns <? n)) in
    let pflip := N.lor pflip (N.shiftl (N.land (b2n (p =? 0)) pos_bit) (N.of_nat bix)) in
    let nflip := N.lor nflip (N.shiftl (N.land (b2n (n =? 0)) neg_bit) (N.of_nat bix)) in
    let* m := nm_set m (2 * j + 0) c (p - Z.of_N pos_bit) in
    let* m := nm_set m (2 * j + 1) c (n - Z.of_N neg_bit) in
    Ret (m, N.shiftr pos_dec 1, N.shiftr neg_dec 1, pflip, nflip)).
(** 521-589 block1 (blockwise); ct1, ct2 the blocks at ct_pos_p, ct_neg_p. content_blocks() and tail_bits() are those of the polarity row *)
Definition bw_block1_words (Ns : Z) (j : nat) (ct1 ct2 : list N) (mp : nmatrix * bmatrix) : outcome (nmatrix * bmatrix) :=
  for_blocks (bm_cols mp.2) (fun k bits '(m, p) =>
    let* pos_dec := vget ct1 k in
    let* neg_dec := vget ct2 k in
    let* '(m, _, _, pflip, nflip) := block1_bits Ns j k bits m pos_dec neg_dec in
    let* p := xor_blocks j k p pflip nflip in
    Ret (m, p)) mp.

(** 725-748 the loop of process_block of block2 (blockwise); state: matrix, pos_inc, pos_dec, neg_inc, neg_dec, the two flips *)
Definition block2_bits (Ns : Z) (j k bits : nat) (m : nmatrix) (pos_inc pos_dec neg_inc neg_dec : N)
  : outcome (nmatrix * (N * N * N * N) * N * N) :=
  ofor 0 bits (m, (pos_inc, pos_dec, neg_inc, neg_dec), 0%N, 0%N) (fun bix '(m, (pos_inc, pos_dec, neg_inc, neg_dec), pflip, nflip) =>
    let c := (k * 64 + bix)%nat in
    let* p := nm_get m (2 * j + 0) c in
    let* n := nm_get m (2 * j + 1) c in
    let pos_inc_bit := N.land pos_inc (b2n (p <? Ns - 1)) in
    let pos_dec_bit := N.land pos_dec (b2n (- Ns <? p)) in
    let neg_inc_bit := N.land neg_inc (b2n (n <? Ns - 1)) in
    let neg_dec_bit := N.land neg_dec (b2n (- Ns <? n)) in
    let pflip := N.lor pflip (N.shiftl (N.land (b2n (p =? 0)) pos_dec_bit) (N.of_nat bix)) in
    let nflip := N.lor nflip (N.shiftl (N.land (b2n (n =? 0)) neg_dec_bit) (N.of_nat bix)) in
    let* m := nm_set m (2 * j + 0) c (p + Z.of_N pos_inc_bit) in
    let* p := nm_get m (2 * j + 0) c in
    let* m := nm_set m (2 * j + 0) c (p - Z.of_N pos_dec_bit) in
    let* m := nm_set m (2 * j + 1) c (n + Z.of_N neg_inc_bit) in
    let* n := nm_get m (2 * j + 1) c in
    let* m := nm_set m (2 * j + 1) c (n - Z.of_N neg_dec_bit) in
    let* p := nm_get m (2 * j + 0) c in
    let* n := nm_get m (2 * j + 1) c in
    let pflip := N.lor pflip (N.shiftl (N.land (b2n (p =? 0)) pos_inc_bit) (N.of_nat bix)) in
    let nflip := N.lor nflip (N.shiftl (N.land (b2n (n =? 0)) neg_inc_bit) (N.of_nat bix)) in
    Ret (m, (N.shiftr pos_inc 1, N.shiftr pos_dec 1, N.shiftr neg_inc 1, N.shiftr neg_dec 1), pflip, nflip)).
(** 682-766 block2 (blockwise) *)
Definition bw_block2_words (boost : bool) (Ns : Z) (j : nat) (X : bit_vector) (ct1 ct2 : list N) (mp : nmatrix * bmatrix)
  : outcome (nmatrix * bmatrix) :=
  for_blocks (bv_len X) (fun k bits '(m, p) =>
    let* x := vget (bv_blocks X) k in
    let X_0 := bnot 64 x in
    let X_1 := x in
    let* c1 := vget ct1 k in
    let* c2 := vget ct2 k in
    let pos_inc := N.land X_1 (if boost then N.ones 64 else bnot 64 c1) in
    let pos_dec := N.land X_0 c1 in
    let neg_inc := N.land X_0 (if boost then N.ones 64 else bnot 64 c2) in
    let neg_dec := N.land X_1 c2 in
    let* '(m, _, pflip, nflip) := block2_bits Ns j k bits m pos_inc pos_dec neg_inc neg_dec in
    let* p := xor_blocks j k p pflip nflip in
    Ret (m, p)) mp.

(** 769-817 block3_ (one feature at a time) *)
Definition bw_inc_excluded (r fidx : nat) (m : nmatrix) (p : bmatrix) : outcome (nmatrix * bmatrix) :=
  let* st := nm_get m r fidx in
  if 0 <=? st then Ret (m, p) else
  let* m := nm_set m r fidx (st + 1) in
  let* st := nm_get m r fidx in
  let* p := (if st =? 0 then bm_flip 64 p r fidx else Ret p) in
  Ret (m, p).
Definition bw_block3_ (nf j : nat) (X : bit_vector) (mp : nmatrix * bmatrix) : outcome (nmatrix * bmatrix) :=
  ofor 0 nf mp (fun fidx '(m, p) =>
    let* x := bv_get 64 X fidx in
    if negb x then bw_inc_excluded (2 * j + 0) fidx m p else bw_inc_excluded (2 * j + 1) fidx m p).
