(** * Model of aligned storage: aligned_array.hpp, the buffers of mt.hpp, aligned_allocator.hpp, row addresses of the matrices.
    Addresses are std::size_t values, 64 bits.  Proofs are elsewhere. *)
From Verif Require Export Base Containers.
Local Open Scope Z_scope.

Definition size_max : Z := 18446744073709551615.
Definition u64 (z : Z) : Z := z mod 18446744073709551616.

(** is_power_of_two.hpp:7-10  x && !(x & (x - 1)), for an unsigned x *)
Definition is_power_of_two (x : Z) : bool := negb (x =? 0) && (Z.land x (u64 (x - 1)) =? 0).

(** (addr + Alignment - 1) & ~(Alignment - 1) in std::size_t: aligned_array.hpp:32 and mt.hpp:63, 69 *)
Definition align_up (addr al : Z) : Z := Z.land (u64 (u64 (addr + al) - 1)) (u64 (Z.lnot (u64 (al - 1)))).

(** ** aligned_array.hpp: an object whose byte array a starts at address [addr] *)
(** 91 size of a: Alignment - 1 + nelem * sizeof (value_type) *)
Definition aa_bytes (sz nelem al : Z) : Z := al - 1 + nelem * sz.
(** 31-34 offset *)
Definition aa_offset (addr al : Z) : Z := u64 (align_up addr al - addr).
(** 50-58 data() = &a[offset] *)
Definition aa_data (addr al : Z) : Z := addr + aa_offset addr al.
(** byte addressed memory *)
Definition memory := Z -> Z.
Definition mem_set (m : memory) (a v : Z) : memory := fun x => if x =? a then v else m x.
(** std::copy_n of [n] bytes (value_type trivially copyable) from [src] to [dst], front to back *)
Fixpoint copy_bytes (m : memory) (src dst : Z) (n : nat) : memory :=
  match n with
  | O => m
  | S n => copy_bytes (mem_set m dst (m src)) (src + 1) (dst + 1) n
  end.
(** 45-48 operator=, also the second half of the copy constructor 36-43 *)
Definition aa_assign (m : memory) (this other sz nelem al : Z) : memory :=
  copy_bytes m (aa_data other al) (aa_data this al) (Z.to_nat (nelem * sz)).
(** 95-100 operator==: element by element; here byte by byte *)
Definition aa_equal (m : memory) (lhs rhs sz nelem al : Z) : bool :=
  forallb (fun i => m (aa_data lhs al + Z.of_nat i) =? m (aa_data rhs al + Z.of_nat i)) (seq 0 (Z.to_nat (nelem * sz))).

(** ** mt.hpp:57-70 aRES, aMT with [n] = MTSZ * NS elements of [sz] bytes at address [addr] *)
Definition prng_bytes (sz n al : Z) : Z := (n + al / sz) * sz.
Definition prng_ptr (addr al : Z) : Z := align_up addr al.

(** ** aligned_allocator.hpp:103-134 allocate(n): number of bytes asked from _mm_malloc, or the exception *)
Definition al_max_size (sz : Z) : Z := size_max / sz.
Inductive allocation := NullPointer | Bytes (n : Z) | LengthError.
Definition al_allocate (sz n : Z) : allocation :=
  if n =? 0 then NullPointer else if al_max_size sz <? n then LengthError else Bytes (u64 (n * sz)).

(** ** row addresses; [base] is m_v.data() *)
(** basic_numeric_matrix.hpp:107-110, 134-142 *)
Definition nm_row_address (base : Z) (m : nmatrix) (r : nat) : Z := base + Z.of_nat (nm_offset m r 0) * (nm_w m / 8).
(** basic_bit_matrix.hpp row_data: &m_v[nr * m_row_blocks] *)
Definition bm_row_address (base : Z) (W : nat) (m : bmatrix) (r : nat) : Z := base + Z.of_nat (r * bm_row_blocks m) * (Z.of_nat W / 8).
