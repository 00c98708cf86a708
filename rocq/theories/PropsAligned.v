(** * Property theorems about aligned storage: C50.
    Reading guide: addresses are 64-bit; an alignment is admitted by the library's own static assertion [is_power_of_two];
    [aa_data addr al] is data() of an AlignedArray whose bytes start at [addr], [aa_bytes] the number of these bytes; [prng_ptr addr al]
    is the pointer a generator computes into a buffer of [prng_bytes] bytes at [addr] (Aligned.v). *)
From Verif Require Import AlignedFacts.
From stdpp Require Import list.
Local Open Scope Z_scope.

(** ** C50 *)
(** data() is aligned, and the elements lie inside the bytes of the array, wherever it is *)
Theorem C50_aligned_array : forall addr sz nelem al, is_power_of_two al = true -> 0 <= al <= size_max -> 0 < sz -> 0 < nelem ->
  0 <= addr -> addr + aa_bytes sz nelem al <= size_max + 1 ->
  aa_data addr al mod al = 0 /\ addr <= aa_data addr al /\ aa_data addr al + nelem * sz <= addr + aa_bytes sz nelem al.
Proof. intros addr sz nelem al Hp Hal Hsz Hn Ha Hb. apply aa_data_spec; try done; unfold aa_bytes in *; nia. Qed.
Print Assumptions C50_aligned_array.
(** assignment and copy construction between arrays at different addresses (with different offsets): equal afterwards, the elements
    are those of the source, and no byte outside the target is written *)
Theorem C50_aligned_array_copy : forall m this other sz nelem al, is_power_of_two al = true -> 0 <= al <= size_max -> 0 < sz -> 0 < nelem ->
  0 <= this -> this + aa_bytes sz nelem al <= size_max + 1 -> 0 <= other -> other + aa_bytes sz nelem al <= size_max + 1 ->
  (this + aa_bytes sz nelem al <= other \/ other + aa_bytes sz nelem al <= this) ->
  let m' := aa_assign m this other sz nelem al in
  aa_equal m' this other sz nelem al = true /\
  (forall x, ~ (this <= x < this + aa_bytes sz nelem al) -> m' x = m x) /\
  (forall i, 0 <= i < nelem * sz -> m' (aa_data this al + i) = m (aa_data other al + i)).
Proof.
  intros m this other sz nelem al Hp Hal Hsz Hn H1 H2 H3 H4 H5. apply aa_assign_spec; try done; try lia.
  - unfold placed, aa_bytes in *. nia.
  - unfold placed, aa_bytes in *. nia.
  - unfold storage. lia.
Qed.
Print Assumptions C50_aligned_array_copy.
(** generator buffers: the element size divides the alignment (32-bit words, 64-byte alignment), so the buffer need not be aligned itself *)
Theorem C50_generator_buffer : forall addr sz n al, is_power_of_two al = true -> 0 <= al <= size_max -> 0 < sz -> al mod sz = 0 -> 0 < n ->
  0 <= addr -> addr + prng_bytes sz n al <= size_max + 1 ->
  prng_ptr addr al mod al = 0 /\ addr <= prng_ptr addr al /\ prng_ptr addr al + n * sz <= addr + prng_bytes sz n al.
Proof.
  intros addr sz n al Hp Hal Hsz Hm Hn Ha Hb. apply prng_ptr_spec; try done; try lia.
  unfold prng_bytes in Hb. pose proof (Z.div_mod al sz ltac:(lia)). nia.
Qed.
Print Assumptions C50_generator_buffer.
(** what the static assertion admits *)
Theorem C50_power_of_two : forall x, 0 <= x <= size_max -> is_power_of_two x = true <-> exists k, 0 <= k < 64 /\ x = 2 ^ k.
Proof. exact power_of_two. Qed.
Print Assumptions C50_power_of_two.
(** rows of matrices start at aligned addresses when the vector does, as the code promises the compiler *)
Theorem C50_rows : forall base, base mod 64 = 0 ->
  (forall m r, nm_w m = 8 \/ nm_w m = 16 \/ nm_w m = 32 -> nm_row_address base m r mod 64 = 0) /\
  (forall rows cols r, bm_row_address base 64 (bm_new 64 rows cols) r mod 64 = 0).
Proof. intros base H. split; intros; [by apply nm_row_aligned|by apply bm_row_aligned]. Qed.
Print Assumptions C50_rows.
(** the allocator never asks for a wrapped size *)
Theorem C50_allocator : forall sz n, 0 < sz -> 0 <= n ->
  match al_allocate sz n with
  | NullPointer => n = 0
  | Bytes b => 0 < n /\ b = n * sz /\ b <= size_max
  | LengthError => size_max < n * sz
  end.
Proof. exact al_allocate_spec. Qed.
Print Assumptions C50_allocator.

(** an odd address, as in the packed structure of the unit tests; the largest alignment *)
Example C50_example : is_power_of_two 64 = true /\ is_power_of_two 9223372036854775808 = true /\ is_power_of_two 96 = false /\
  aa_data 1001 64 = 1024 /\ aa_offset 1001 64 = 23 /\ aa_bytes 4 8 64 = 95 /\ 1001 + aa_bytes 4 8 64 <= size_max + 1 /\
  aa_data 1024 64 = 1024 /\ prng_ptr 1001 64 = 1024 /\ prng_bytes 4 624 64 = 2560 /\
  al_allocate 4 4611686018427387903 = Bytes 18446744073709551612 /\ al_allocate 4 4611686018427387904 = LengthError.
Proof. repeat split; done. Qed.
