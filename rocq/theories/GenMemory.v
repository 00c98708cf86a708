(** * Model of generator objects in memory: mt.hpp:45-70, 192-204.  Byte addressed memory and [prng_ptr] as in Aligned.v.
    Instantiated as the library does: alignment 64, 8 streams of 624 words, 4-byte words and floats.  Proofs are elsewhere. *)
From Verif Require Export Aligned.
Local Open Scope Z_scope.

(** 57-60 layout of basic_IRNG<64, 8> and basic_FRNG<64, 8>: index at 0; the arrays carry alignas(64), so aRES follows at offset 64 and,
    being [prng_bytes 4 4992 64] = 20032 = 313 * 64 bytes long, aMT at 20096; sizeof is 40128 *)
Definition g_bytes : Z := prng_bytes 4 4992 64.
Definition g_aRES (o : Z) : Z := o + 64.
Definition g_aMT (o : Z) : Z := o + 64 + g_bytes.
Definition g_sizeof : Z := 64 + 2 * g_bytes.
(** 62-72 RESp, MTp: the words in use *)
Definition g_RESp (o : Z) : Z := prng_ptr (g_aRES o) 64.
Definition g_MTp (o : Z) : Z := prng_ptr (g_aMT o) 64.
Definition g_words : Z := 4992 * 4.
(** 192-204 operator= *)
Definition g_assign (m : memory) (this other : Z) : memory :=
  if this =? other then m
  else
    let m := copy_bytes m other this 4 in
    let m := copy_bytes m (g_RESp other) (g_RESp this) (Z.to_nat g_words) in
    copy_bytes m (g_MTp other) (g_MTp this) (Z.to_nat g_words).
(** the copy constructor is not declared, hence implicit: member by member, the arrays from their first byte *)
Definition g_copy_construct (m : memory) (this other : Z) : memory :=
  let m := copy_bytes m other this 4 in
  let m := copy_bytes m (g_aRES other) (g_aRES this) (Z.to_nat g_bytes) in
  copy_bytes m (g_aMT other) (g_aMT this) (Z.to_nat g_bytes).
