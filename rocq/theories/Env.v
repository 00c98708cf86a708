(** * Sources of nondeterminism: generators, std::shuffle, argument evaluation order, OpenMP schedules. *)
From Verif Require Export Base Floats.
From stdpp Require Import sorting.

(** Everything random. The C++ uses IRNG / FRNG of mt.hpp (modelled in Rng.v, which is one instance);
    theorems quantify over every [rnd] satisfying [rnd_ok].
    - [g_next]   : IRNG::operator(), one unsigned int draw;
    - [f_next]   : FRNG::next(), one float draw;
    - [shuf g n] : std::iota + std::shuffle of [0..n) driven by [g] (tsetlini.cpp:711-712, 869-870);
                   the standard leaves the algorithm open, so it is an arbitrary function;
    - [ltr]      : whether `ct.tosses1(prng), ct.tosses2(prng)` in an argument list is evaluated left to right
                   (unspecified in C++17);
    - [tfuel]    : bound on the iterations of the rejection loop of CoinTosserExact::tosses_ (see CoinTosser.v);
    - [bm1],[bm2]: tables sqrt_log_u1_arr and sin_u2_arr of box_muller_approx.cpp. *)
Record rnd := Rnd {
  eG : Type;
  g_init : Z -> eG;
  g_next : eG -> Z * eG;
  eF : Type;
  f_init : Z -> eF;
  f_next : eF -> float32 * eF;
  shuf : eG -> nat -> list nat * eG;
  ltr : bool;
  tfuel : nat;
  bm1 : Z -> float32;
  bm2 : Z -> float32;
}.

(** OpenMP: the order in which the iterations of `#pragma omp parallel for if (n_jobs > 1) num_threads(n_jobs)`
    take effect, picked anew for every parallel region from a scheduler state.
    [sched s n_jobs b e] lists the iterations of the range [b, e). *)
Record sch := Sch {
  eS : Type;
  s_init : eS;
  sched : eS -> Z -> nat -> nat -> list nat * eS;
}.

(** Laws. [g_ok], [f_ok] are the representation invariants of the generators. *)
Record rnd_ok (R : rnd) (g_ok : eG R -> Prop) (f_ok : eF R -> Prop) : Prop := {
  g_init_ok : forall z, g_ok (g_init R z);
  g_next_ok : forall g, g_ok g -> (0 <= (g_next R g).1 < 4294967296)%Z /\ g_ok (g_next R g).2;
  f_init_ok : forall z, f_ok (f_init R z);
  f_next_ok : forall f, f_ok f ->
    f_lt (S754_zero false) (f_next R f).1 = true /\ f_le (f_next R f).1 f32_one = true /\ f_ok (f_next R f).2;
  shuf_ok : forall g n, g_ok g -> Permutation (shuf R g n).1 (seq 0 n) /\ g_ok (shuf R g n).2;
}.
Definition sch_ok (S : sch) : Prop :=
  forall s nj b e, Permutation (sched S s nj b e).1 (seq b (e - b)).
