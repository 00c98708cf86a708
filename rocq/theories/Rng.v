(** * Model of lib/include/mt.hpp: SIMD-friendly Mersenne Twister with NS = 8 interleaved streams. *)
From Verif Require Import Base Floats.
From Coq Require Import ZArith Floats.SpecFloat.
Local Open Scope Z_scope.

(** mt.hpp:52-54 *)
Definition MTSZ : nat := 624.
Definition NS : nat := 8.
Definition MTLEN : nat := 624 * 8.

(** mt.hpp:57-60. The two arrays are modelled by their aligned contents RESp()[0 .. MTSZ*NS), MTp()[0 .. MTSZ*NS);
    alignment of the pointers is modelled separately (Aligned.v). *)
Record mt_state (V : Type) := MTS { mt_index : nat; mt_res : list V; mt_mt : list Z }.
Arguments MTS {V}. Arguments mt_index {V}. Arguments mt_res {V}. Arguments mt_mt {V}.

(** mt.hpp:84-94: MT[it] = it + seed; MT[i] = 1812433253UL * (MT[i-NS] ^ (MT[i-NS] >> 30)) + i / NS, stored mod 2^32.
    [window] holds the last NS produced values, oldest first. *)
Fixpoint mt_seed_tail (n : nat) (i : Z) (window : list Z) : list Z :=
  match n with
  | O => []
  | S n' =>
      match window with
      | [] => []
      | p :: w =>
          let v := u32 (1812433253 * Z.lxor p (Z.shiftr p 30) + i / 8) in
          v :: mt_seed_tail n' (i + 1) (w ++ [v])
      end
  end.
Definition mt_seed (seed : Z) : list Z :=
  let first := map (fun it => u32 (Z.of_nat it + seed)) (seq 0 NS) in
  first ++ mt_seed_tail (MTLEN - NS) 8 first.

(** mt.hpp:75-97 constructor and init(int seed) *)
Definition mt_init {V} (zero : V) (seed : Z) : mt_state V :=
  MTS 0 (replicate MTLEN zero) (mt_seed seed).

(** mt.hpp:106-108: one twist. The mask 0x8000000 (bit 27, not bit 31) is as in the source. *)
Definition mt_twist (cur nxt far : Z) : Z :=
  let y := Z.land cur 134217728 + Z.land nxt 2147483647 in
  u32 (Z.lxor (Z.lxor far (Z.shiftr y 1)) (if Z.odd y then 2567483615 else 0)).

Definition znth (l : list Z) (i : nat) : Z := nth i l 0.

(** mt.hpp:104-121: in-place regeneration of MT[] *)
Definition mt_regen_step (i : nat) (mt : list Z) : list Z :=
  let nxt := if decide (i < (MTSZ - 1) * NS)%nat then znth mt (i + NS) else znth mt (i - (MTSZ - 1) * NS) in
  let far := if decide (i < 227 * NS)%nat then znth mt (i + 397 * NS) else znth mt (i - 227 * NS) in
  <[i := mt_twist (znth mt i) nxt far]> mt.
Definition mt_regen (mt : list Z) : list Z := fold_left (fun m i => mt_regen_step i m) (seq 0 MTLEN) mt.

(** mt.hpp:127-131 tempering, on unsigned int (left shifts wrap) *)
Definition mt_temper (y : Z) : Z :=
  let y := Z.lxor y (Z.shiftr y 11) in
  let y := Z.lxor y (Z.land (u32 (Z.shiftl y 7)) 2636928640) in
  let y := Z.lxor y (Z.land (u32 (Z.shiftl y 15)) 4022730752) in
  Z.lxor y (Z.shiftr y 18).

Section Base.
  Context {V : Type} (zero : V) (post_process : Z -> V).

  (** mt.hpp:99-134 generate *)
  Definition mt_generate (g : mt_state V) : mt_state V :=
    let mt := mt_regen (mt_mt g) in
    MTS (mt_index g) (map (fun y => post_process (mt_temper y)) mt) mt.

  (** mt.hpp:136-143 peek *)
  Definition mt_peek (g : mt_state V) : V := nth (mt_index g) (mt_res g) zero.

  (** mt.hpp:145-166 rand (also next(), operator()) *)
  Definition mt_rand (g : mt_state V) : V * mt_state V :=
    let g := if decide (mt_index g = 0%nat) then mt_generate g else g in
    let y := nth (mt_index g) (mt_res g) zero in
    let index := if decide (mt_index g = MTLEN - 1)%nat then 0%nat else S (mt_index g) in
    (y, MTS index (mt_res g) (mt_mt g)).
End Base.

(** mt.hpp:194-204 operator=: copies index, RES, MT *)
Definition mt_assign {V} (other : mt_state V) : mt_state V :=
  MTS (mt_index other) (take MTLEN (mt_res other)) (take MTLEN (mt_mt other)).

(** mt.hpp:206-220 operator== *)
Definition mt_eqb {V} (eqV : V -> V -> bool) (a b : mt_state V) : bool :=
  Nat.eqb (mt_index a) (mt_index b)
  && (Nat.eqb (length (mt_res a)) (length (mt_res b)) && forallb (fun p => eqV p.1 p.2) (combine (mt_res a) (mt_res b)))
  && (Nat.eqb (length (mt_mt a)) (length (mt_mt b)) && forallb (fun p => Z.eqb p.1 p.2) (combine (mt_mt a) (mt_mt b))).

(** ** IRNG, mt.hpp:224-262; post_process is the identity *)
Definition irng := mt_state Z.
Definition irng_init (seed : Z) : irng := mt_init 0 seed.
Definition irng_next (g : irng) : Z * irng := mt_rand 0 (fun y => y) g.
(** mt.hpp:243-247 next(x) *)
Definition irng_next_below (g : irng) (x : Z) : outcome (Z * irng) :=
  let '(r, g) := irng_next g in
  if x =? 0 then UB DivByZero else Ret (r mod x, g).

(** ** FRNG, mt.hpp:265-285; post_process mt.hpp:278-282: (y + 0.5f) * (1.0f / 4294967296.0f) *)
Definition frng := mt_state float32.
Definition frng_post (y : Z) : float32 := f32_mul (f32_add (f32_of_Z y) f32_half) f32_2pm32.
Definition frng_init (seed : Z) : frng := mt_init (S754_zero false) seed.
Definition frng_next (g : frng) : float32 * frng := mt_rand (S754_zero false) frng_post g.
