(** * Model of lib/src/frand_cache.hpp (no public estimator uses it) *)
From Verif Require Export Env.
Local Open Scope Z_scope.

(** frand_cache.hpp:58-59 members; m_pos is an unsigned int *)
Record frand_cache := FC { fc_pos : Z; fc_vals : list float32 }.
(** frand_cache.hpp:21-25 explicit constructor (a negative size throws std::length_error and is not modelled), 27-31 default *)
Definition fc_new (sz : nat) : frand_cache := FC (Z.of_nat sz) (replicate sz (S754_zero false)).
Definition fc_default : frand_cache := FC 0 [].

Section FrandCache.
  Context (R : rnd).
  (** frand_cache.hpp:33-45 refill: the loop condition is evaluated with the unchanged m_pos *)
  Fixpoint fc_fill (k it : nat) (v : list float32) (f : eF R) : outcome (list float32 * eF R) :=
    match k with
    | O => Ret (v, f)
    | S k => let '(x, f) := f_next R f in
             let* v := vset v it x in
             fc_fill k (S it) v f
    end.
  Definition fc_refill (c : frand_cache) (f : eF R) : outcome (frand_cache * eF R) :=
    let* '(v, f) := fc_fill (Z.to_nat (Z.min (fc_pos c) (u32 (Z.of_nat (length (fc_vals c)))))) 0 (fc_vals c) f in
    Ret (FC 0 v, f).
  (** frand_cache.hpp:47-56 next, operator() *)
  Definition fc_next (c : frand_cache) : outcome (float32 * frand_cache) :=
    let* x := vget (fc_vals c) (Z.to_nat (fc_pos c)) in
    Ret (x, FC (u32 (fc_pos c + 1)) (fc_vals c)).
End FrandCache.
