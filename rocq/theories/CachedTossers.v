(** * Model of lib/src/coin_tosser.hpp (coin tossers that cache their tosses) and of their use in
    lib/src/estimator_state_cache.cpp:69-117.  No public estimator uses these classes. *)
From Verif Require Export CoinTosser Containers.
Local Open Scope Z_scope.

(** coin_tosser.hpp:59, 147 `unsigned int one_count = std::round(vsz / value_of(s))`: size_t / float is a float division;
    the conversion of the rounded value to unsigned int is undefined outside of its range *)
Definition ones_wanted (size : nat) (s : float32) : outcome Z := to_u32 (f32_round (f32_div (f32_of_Z (Z.of_nat size)) s)).

(** prng() % n, in size_t *)
Definition rmod (r : Z) (n : nat) : outcome nat := if decide (n = 0%nat) then UB DivByZero else Ret (Z.to_nat (r mod Z.of_nat n)).
(** a - b in size_t *)
Definition size_sub (a b : nat) : nat := if decide (b <= a)%nat then (a - b)%nat else Z.to_nat (Z.of_nat a - Z.of_nat b + 2 ^ 64).

(** ** CoinTosser: one char per toss *)
(** coin_tosser.hpp:21-24 members *)
Record byte_tosser := ByteTosser { bt_base : nat; bt_cache : list Z }.
(** coin_tosser.hpp:40-44 *)
Definition bt_default : byte_tosser := ByteTosser 0 [].
(** coin_tosser.hpp:46-51; the sum is one of unsigned ints *)
Definition bt_new (base extra : nat) : byte_tosser := ByteTosser base (replicate (Z.to_nat (u32 (Z.of_nat base + Z.of_nat extra))) 0).

(** ** CoinTosserBitwise: one bit per toss, blocks of 64 bits *)
(** coin_tosser.hpp:106-107 members *)
Record bit_tosser := BitTosser { kt_base : nat; kt_cache : bit_vector }.
(** coin_tosser.hpp:182-189 ceil2, in unsigned int *)
Definition ceil2 (v A : Z) : Z := u32 (u32 (u32 (v + A) - 1) / A * A).
(** coin_tosser.hpp:129-134 *)
Definition kt_default : bit_tosser := BitTosser 0 (bv_new 64 0).
(** coin_tosser.hpp:136-142 *)
Definition kt_new (base extra : nat) : bit_tosser :=
  BitTosser (Z.to_nat (ceil2 (Z.of_nat base) 64)) (bv_new 64 (Z.to_nat (ceil2 (u32 (Z.of_nat base + Z.of_nat extra)) 64))).

Section Tossers.
  Context (R : rnd).
  Notation G := (eG R).

  (** coin_tosser.hpp:55-71 populate.  The loop is the one of the exact tosser ([ct_fill], coin_tosser_exact.hpp:128-134). *)
  Definition bt_populate (s : float32) (bt : byte_tosser) (g : G) : outcome (byte_tosser * G) :=
    let* n := ones_wanted (length (bt_cache bt)) s in
    let* '(c, g) := ct_fill R (tfuel R) n 0 (replicate (length (bt_cache bt)) 0) g in
    Ret (ByteTosser (bt_base bt) c, g).
  (** std::swap(v[i], v[j]) *)
  Definition vswap (v : list Z) (i j : nat) : outcome (list Z) :=
    let* a := vget v i in let* b := vget v j in
    let* v := vset v i b in vset v j a.
  (** coin_tosser.hpp:74-81 mutate; which of the two draws belongs to which argument of std::swap is unspecified in C++ and chosen
      here by [ltr R] *)
  Definition bt_mutate (bt : byte_tosser) (g : G) : outcome (byte_tosser * G) :=
    let vsz := length (bt_cache bt) in
    let '(r1, g) := g_next R g in
    let '(r2, g) := g_next R g in
    let* i1 := rmod r1 vsz in
    let* i2 := rmod r2 vsz in
    let* c := (if ltr R then vswap (bt_cache bt) i1 i2 else vswap (bt_cache bt) i2 i1) in
    Ret (ByteTosser (bt_base bt) c, g).
  (** coin_tosser.hpp:83-97 tosses; the pointer returned is given by its offset from the (64-byte aligned) start of the cache *)
  Definition bt_tosses (bt : byte_tosser) (g : G) : outcome (nat * byte_tosser * G) :=
    let vsz := length (bt_cache bt) in
    let* '(bt, g) := bt_mutate bt g in
    let '(r, g) := g_next R g in
    let* off := rmod r (size_sub vsz (bt_base bt)) in
    let off := (off - off mod 64)%nat in
    let* _ := vget (bt_cache bt) off in
    Ret (off, bt, g).

  (** coin_tosser.hpp:154-160 *)
  Fixpoint kt_fill (fuel : nat) (ones it : Z) (v : bit_vector) (g : G) : outcome (bit_vector * G) :=
    if it <? ones then
      match fuel with
      | O => OutOfFuel
      | S fuel =>
          let '(r, g) := g_next R g in
          let* ix := rmod r (bv_len v) in
          let* b := bv_get 64 v ix in
          let* v := bv_set 64 v ix in
          kt_fill fuel ones (it + if b then 0 else 1) v g
      end
    else Ret (v, g).
  (** coin_tosser.hpp:145-161 populate *)
  Definition kt_populate (s : float32) (kt : bit_tosser) (g : G) : outcome (bit_tosser * G) :=
    let v := kt_cache kt in
    let* n := ones_wanted (bv_len v) s in
    let* '(v, g) := kt_fill (tfuel R) n 0 (BV (bv_len v) (replicate (length (bv_blocks v)) 0%N)) g in
    Ret (BitTosser (kt_base kt) v, g).
  (** coin_tosser.hpp:164-180 mutate *)
  Definition kt_mutate (kt : bit_tosser) (g : G) : outcome (bit_tosser * G) :=
    let v := kt_cache kt in
    let '(r1, g) := g_next R g in
    let* i1 := rmod r1 (bv_len v) in
    let '(r2, g) := g_next R g in
    let* i2 := rmod r2 (bv_len v) in
    let* t1 := bv_get 64 v i1 in
    let* t2 := bv_get 64 v i2 in
    if xorb t1 t2 then
      let* v := bv_flip 64 v i1 in
      let* v := bv_flip 64 v i2 in
      Ret (BitTosser (kt_base kt) v, g)
    else Ret (kt, g).
  (** coin_tosser.hpp:192-203 tosses; the pointer returned is given by the index of the block it points to *)
  Definition kt_tosses (kt : bit_tosser) (g : G) : outcome (nat * bit_tosser * G) :=
    let nblx := bv_content_blocks 64 (kt_cache kt) in
    let nblx_base := (kt_base kt / 64)%nat in
    let* '(kt, g) := kt_mutate kt g in
    let '(r, g) := g_next R g in
    let* blk := rmod r (size_sub nblx nblx_base) in
    let* _ := vget (bv_blocks (kt_cache kt)) blk in
    Ret (blk, kt, g).
End Tossers.

(** estimator_state_cache.cpp:89-90, 115-116: the tosser of a "bitwise cache" for nf features (int); 3 * 8 * base_size is an int *)
Definition bitwise_cache_tosser (nf : Z) : outcome bit_tosser :=
  let* extra := ci32 (24 * nf) in
  Ret (kt_new (Z.to_nat (u32 nf)) (Z.to_nat (u32 extra))).

(** what the reader of [n] tosses at the returned pointer sees *)
Definition bt_window (bt : byte_tosser) (off n : nat) : list Z := take n (drop off (bt_cache bt)).
Definition kt_window (kt : bit_tosser) (blk : nat) : list N := drop blk (bv_blocks (kt_cache kt)).
