(** * Property theorems about the caching coin tossers (C64) and the cache of random floats (C65).
    Reading guide.  [rnd_ok R g_ok f_ok] : any source of random numbers.  [covers R n g] : within the fuel of the model the draws after
    [g] hit every residue modulo n (the rejection loop of populate() ends only then).  [ones_wanted size s] : std::round(size / s)
    as the code computes it.  [bt_run k], [kt_run k] : k calls of tosses(), with the pointers returned (as offsets) and the tosses found
    there.  [zo_list n l] : a list of n zeros and ones.  [kbits v] : the bits of a bit vector, as zeros and ones. *)
From stdpp Require Import tactics list.
From Verif Require Import Base Floats Rng Env CoinTosser Wp CtFacts ContainersFacts KernelFacts KernelProps CachedTossers CachedTosserFacts CachedTosserProps FloatFacts FloatProps FrandCache FrandFacts TosserToy Toy ToyFacts.
From Coq Require Import ZArith Reals.
From stdpp Require Import list.
Local Open Scope Z_scope.

(** C64: for up to 2^24 tosses and s >= 1 the number of ones is defined, at most the number of tosses, and within rounding of size / s. *)
Theorem C64_number_of_ones : forall s (size : nat), fin32 s -> (1 <= val s)%R -> Z.of_nat size <= 16777216 ->
  exists n, ones_wanted size s = Ret n /\ 0 <= n <= Z.of_nat size /\ (Rabs (IZR n - INR size / val s) <= / 2 + INR size / val s / 16777216 + / 10 ^ 30)%R.
Proof. exact ones_wanted_spec. Qed.
Print Assumptions C64_number_of_ones.
(** One char per toss: populate() leaves exactly that many ones; from then on every call of tosses() returns a pointer at a multiple of
    64, followed by at least base_size tosses, which are zeros and ones; the tosses are only ever permuted.  Calling populate() again then does
    what it would do for a new tosser: nothing remains of the old tosses. *)
Theorem C64_byte_tosser : forall (R : rnd) g_ok f_ok, rnd_ok R g_ok f_ok -> forall base extra s n g,
  Z.of_nat (base + extra) < 4294967296 -> (0 < extra)%nat -> g_ok g ->
  ones_wanted (base + extra) s = Ret n -> 0 <= n <= Z.of_nat (base + extra) ->
  (covers R (base + extra) g -> exists bt g', bt_populate R s (bt_new base extra) g = Ret (bt, g')) /\
  forall bt g', bt_populate R s (bt_new base extra) g = Ret (bt, g') ->
    zo_list (base + extra) (bt_cache bt) /\ Z.of_nat (count_ones (bt_cache bt)) = n /\
    forall k, exists ws bt2 g2, bt_run R k bt g' = Ret (ws, bt2, g2) /\ bt_cache bt2 ≡ₚ bt_cache bt /\ (forall s2 g3, bt_populate R s2 bt2 g3 = bt_populate R s2 (bt_new base extra) g3) /\ length ws = k /\
      Forall (fun '(off, w) => (off mod 64 = 0 /\ off < extra)%nat /\ zo_list base w) ws.
Proof. exact bt_whole. Qed.
Print Assumptions C64_byte_tosser.
(** (defect) without extra tosses the first call of tosses() divides by zero *)
Theorem C64_no_extra_refuted : forall (R : rnd) g_ok f_ok, rnd_ok R g_ok f_ok -> forall base s n g bt g',
  Z.of_nat base < 4294967296 -> (0 < base)%nat -> g_ok g -> ones_wanted base s = Ret n -> 0 <= n <= Z.of_nat base ->
  bt_populate R s (bt_new base 0) g = Ret (bt, g') -> bt_tosses R bt g' = UB DivByZero.
Proof. exact bt_none. Qed.
Print Assumptions C64_no_extra_refuted.
(** (defect) the bound 2^24 is needed: for 16777219 tosses and s = 1, 16777220 ones are wanted and populate() never ends *)
Theorem C64_too_many_refuted : forall (R : rnd) g_ok f_ok, rnd_ok R g_ok f_ok -> forall base extra g,
  Z.of_nat (base + extra) = 16777219 -> g_ok g -> bt_populate R f32_one (bt_new base extra) g = OutOfFuel.
Proof. exact bt_stuck. Qed.
Print Assumptions C64_too_many_refuted.

(** One bit per toss, for nf tosses in B = [blocks_for 64 nf] words out of T: the same; the words at the returned pointer hold (in the
    sense of C62, [packs]) the tosses at the bits from 64 times the word index on. *)
Theorem C64_bit_tosser : forall (R : rnd) g_ok f_ok, rnd_ok R g_ok f_ok -> forall nf extra s n g,
  Z.of_nat (nf + extra) + 63 < 4294967296 -> g_ok g -> let T := blocks_for 64 (nf + extra) in
  (blocks_for 64 nf < T)%nat -> ones_wanted (64 * T) s = Ret n -> 0 <= n <= Z.of_nat (64 * T) ->
  (covers R (64 * T) g -> exists kt g', kt_populate R s (kt_new nf extra) g = Ret (kt, g')) /\
  forall kt g', kt_populate R s (kt_new nf extra) g = Ret (kt, g') ->
    zo_list (64 * T) (kbits (kt_cache kt)) /\ Z.of_nat (count_ones (kbits (kt_cache kt))) = n /\
    forall k, exists ws kt2 g2, kt_run R k kt g' = Ret (ws, kt2, g2) /\ kbits (kt_cache kt2) ≡ₚ kbits (kt_cache kt) /\ (forall s2 g3, kt_populate R s2 kt2 g3 = kt_populate R s2 (kt_new nf extra) g3) /\ length ws = k /\
      Forall (fun '(blk, W, bits) =>
        (let ct := take nf (drop (64 * blk) bits) in (blk + blocks_for 64 nf <= T)%nat /\ zo_list nf ct /\ packs nf W ct) /\ bits ≡ₚ kbits (kt_cache kt)) ws.
Proof. exact kt_whole. Qed.
Print Assumptions C64_bit_tosser.
(** The tosser that the bitwise caches make for nf features works for 3 to 671088 features ... *)
Theorem C64_cache_tosser : forall (R : rnd) g_ok f_ok nf s g, rnd_ok R g_ok f_ok -> fin32 s -> (1 <= val s)%R -> g_ok g -> 3 <= nf <= 671088 ->
  exists kt0 n, bitwise_cache_tosser nf = Ret kt0 /\ let T := blocks_for 64 (Z.to_nat (25 * nf)) in
    (Rabs (IZR n - INR (64 * T) / val s) <= / 2 + INR (64 * T) / val s / 16777216 + / 10 ^ 30)%R /\
    (covers R (64 * T) g -> exists kt g', kt_populate R s kt0 g = Ret (kt, g')) /\
    forall kt g', kt_populate R s kt0 g = Ret (kt, g') ->
      zo_list (64 * T) (kbits (kt_cache kt)) /\ Z.of_nat (count_ones (kbits (kt_cache kt))) = n /\
      forall k, exists ws kt2 g2, kt_run R k kt g' = Ret (ws, kt2, g2) /\ kbits (kt_cache kt2) ≡ₚ kbits (kt_cache kt) /\ (forall s2 g3, kt_populate R s2 kt2 g3 = kt_populate R s2 kt0 g3) /\ length ws = k /\
        Forall (fun '(blk, W, bits) => good_window (Z.to_nat nf) T blk W bits /\ bits ≡ₚ kbits (kt_cache kt)) ws.
Proof. exact cache_tosser_works. Qed.
Print Assumptions C64_cache_tosser.
(** ... (defect) for 1 and 2 features the first call of tosses() divides by zero, beyond 89478485 features its size overflows ... *)
Theorem C64_few_features_refuted : forall (R : rnd) g_ok f_ok nf kt0 s g kt g', rnd_ok R g_ok f_ok -> fin32 s -> (1 <= val s)%R -> g_ok g -> 1 <= nf <= 2 ->
  bitwise_cache_tosser nf = Ret kt0 -> kt_populate R s kt0 g = Ret (kt, g') -> kt_tosses R kt g' = UB DivByZero.
Proof. exact small_undefined. Qed.
Print Assumptions C64_few_features_refuted.
Theorem C64_many_features_refuted : forall nf, 89478486 <= nf <= int_max -> bitwise_cache_tosser nf = UB SignedOverflow.
Proof. exact cache_tosser_overflow. Qed.
Print Assumptions C64_many_features_refuted.
(** ... and (defect) the returned pointers, 8 * blk bytes after a 64-byte boundary, need not be aligned to 64 bytes, which the kernels
    assume: the word index is the third draw modulo the number of choices. *)
Theorem C64_pointer : forall (R : rnd) nf T v g, (blocks_for 64 nf < T)%nat ->
  bv_wf 64 v -> bv_len v = (64 * T)%nat -> length (bv_blocks v) = T ->
  exists v', kt_tosses R (BitTosser (64 * blocks_for 64 nf) v) g =
    Ret (Z.to_nat (g_draw R g 2 mod Z.of_nat (T - blocks_for 64 nf)), BitTosser (64 * blocks_for 64 nf) v', g_skip R g 3).
Proof. intros R nf T v g HT H1 H2 H3. exact (kt_pointer R nf T v g HT (conj H1 (conj H2 H3))). Qed.
Print Assumptions C64_pointer.
Theorem C64_unaligned_refuted : forall (R : rnd) nf T v g, (blocks_for 64 nf < T)%nat ->
  bv_wf 64 v -> bv_len v = (64 * T)%nat -> length (bv_blocks v) = T -> (g_draw R g 2 mod Z.of_nat (T - blocks_for 64 nf)) mod 8 <> 0 ->
  exists blk v' g', kt_tosses R (BitTosser (64 * blocks_for 64 nf) v) g = Ret (blk, v', g') /\ (8 * Z.of_nat blk) mod 64 <> 0.
Proof. intros R nf T v g HT H1 H2 H3. exact (kt_unaligned R nf T v g HT (conj H1 (conj H2 H3))). Qed.
Print Assumptions C64_unaligned_refuted.
Example C64_example_bytes : ones_wanted (3 + 130) (f32_of_Z 3) = Ret 44 /\
  (let* '(bt, g) := bt_populate toy (f32_of_Z 3) (bt_new 3 130) 7 in
   let* '(ws, bt2, _) := bt_run toy 5 bt g in Ret (ws, count_ones (bt_cache bt), count_ones (bt_cache bt2)))
  = Ret ([(0%nat, [0; 1; 0]); (64%nat, [0; 0; 0]); (0%nat, [0; 1; 0]); (64%nat, [0; 0; 0]); (64%nat, [0; 0; 0])], 44%nat, 44%nat).
Proof. exact toy_bytes_eq. Qed.
(** words 1 and 2 are not at a multiple of 64 bytes *)
Example C64_example_words : (let* kt := bitwise_cache_tosser 10 in let* '(kt, g) := kt_populate toy (f32_of_Z 3) kt 7 in
  let* '(ws, _, _) := kt_run toy 5 kt g in Ret (map (fun w => (w.1.1, take 10 (drop (64 * w.1.1) w.2))) ws, count_ones (kbits (kt_cache kt)), length (bv_blocks (kt_cache kt))))
  = Ret ([(1%nat, [0; 0; 0; 0; 1; 1; 0; 0; 0; 0]); (0%nat, [1; 1; 0; 1; 1; 0; 1; 1; 0; 1]); (2%nat, [0; 1; 0; 0; 1; 0; 1; 0; 1; 1]);
  (1%nat, [0; 0; 0; 1; 1; 1; 0; 0; 0; 0]); (0%nat, [1; 1; 0; 1; 1; 0; 1; 1; 0; 1])], 85%nat, 4%nat).
Proof. exact toy_words_eq. Qed.

(** C65: a program that refills first and reads at most n values between refills ([within n n]) never reads out of bounds, and the
    values it has read, together with those not yet read, are exactly the d values the cache has drawn so far - each of them once. *)
Theorem C65_every_draw_once : forall (R : rnd) n os f, Z.of_nat n + 1 < 4294967296 -> within n n os ->
  exists xs c d, fc_run R os (fc_new n) f = Ret (xs, c, f_skip R d f) /\ xs ++ drop (Z.to_nat (fc_pos c)) (fc_vals c) ≡ₚ f_draws R d f.
Proof. exact fc_new_run. Qed.
Print Assumptions C65_every_draw_once.
(** The first read beyond that is out of bounds. *)
Theorem C65_too_many_reads : forall (R : rnd) n os1 os2 f, Z.of_nat n + 1 < 4294967296 -> within n n os1 -> ~ within n n (os1 ++ [FNext]) ->
  fc_run R (os1 ++ FNext :: os2) (fc_new n) f = UB OutOfBounds.
Proof. exact fc_overrun. Qed.
Print Assumptions C65_too_many_reads.
(** (defect) values left over at a refill are delivered after younger ones: the order is not that of the generator *)
Theorem C65_order_refuted : exists R n os f xs c d, within n n os /\ fc_run R os (fc_new n) f = Ret (xs, c, f_skip R d f) /\
  length xs = d /\ xs <> f_draws R d f.
Proof. destruct toy_floats as (H & xs & c & E & El & Ne). exact (ex_intro _ toy (ex_intro _ 2%nat (ex_intro _ toy_fops (ex_intro _ (f_init toy 3) (ex_intro _ xs (ex_intro _ c (ex_intro _ 5%nat (conj H (conj E (conj El Ne)))))))))). Qed.
Print Assumptions C65_order_refuted.
Example C65_example : within 2 2 [FRefill; FNext; FNext; FRefill; FNext; FRefill; FNext; FNext].
Proof. exact (proj1 toy_floats). Qed.
