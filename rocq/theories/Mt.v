(** * The random environment of the library with the generators of lib/include/mt.hpp (Rng.v) plugged in.  Proofs are elsewhere. *)
From Verif Require Export Base Floats Rng Env.
Local Open Scope Z_scope.

(** mt.hpp:249-253 next(int a, int b): a + (rand() % (b + 1 - a)).  b + 1 - a is computed in int, converted to unsigned for the
    remainder, the sum is unsigned. *)
Definition irng_next_range (g : irng) (a b : Z) : outcome (Z * irng) :=
  let '(r, g) := irng_next g in
  let* b1 := ci32 (b + 1) in
  let* d := ci32 (b1 - a) in
  if u32 d =? 0 then UB DivByZero else Ret (u32 (a + r mod u32 d), g).

(** [n] successive draws *)
Fixpoint draws {G V} (next : G -> V * G) (n : nat) (g : G) : list V * G :=
  match n with
  | O => ([], g)
  | S n => let '(v, g) := next g in let '(vs, g) := draws next n g in (v :: vs, g)
  end.

(** std::shuffle is driven by draws of the generator; which permutation it makes of them is left open by the standard.
    [mt_rnd sh] is the environment for an arbitrary such [sh]; the remaining arguments are those of [Env.rnd]. *)
Definition mt_rnd (sh : irng -> nat -> list nat * irng) (l : bool) (fuel : nat) (b1 b2 : Z -> float32) : rnd :=
  Rnd irng irng_init irng_next frng frng_init frng_next sh l fuel b1 b2.

(** what is assumed of std::shuffle: a permutation, and the generator only advances by drawing *)
Definition shuffle_ok (sh : irng -> nat -> list nat * irng) : Prop :=
  forall g n, Permutation (sh g n).1 (seq 0 n) /\ exists k, (sh g n).2 = (draws irng_next k g).2.

(** a concrete shuffle (Fisher and Yates, for i = n-1 .. 1 swap i with draw mod (i+1)), for examples *)
Definition swap (l : list nat) (i j : nat) : list nat :=
  match l !! i, l !! j with Some a, Some b => <[i := b]> (<[j := a]> l) | _, _ => l end.
Fixpoint fy (i : nat) (l : list nat) (g : irng) : list nat * irng :=
  match i with
  | O => (l, g)
  | S i' => let '(r, g) := irng_next g in fy i' (swap l i (Z.to_nat (r mod (Z.of_nat i + 1)))) g
  end.
Definition fy_shuffle (g : irng) (n : nat) : list nat * irng := fy (n - 1) (seq 0 n) g.
