(** * Model of lib/src/coin_tosser_exact.hpp, lib/src/loss_fn.cpp, lib/src/box_muller_approx.cpp *)
From Verif Require Export Env.
From stdpp Require Export strings.
Local Open Scope Z_scope.

(** coin_tosser_exact.hpp:18-30 members. (m_s_inv is never read after construction.) *)
Record coin_tosser := CT { ct_sinv : float32; ct_floor : Z; ct_thr : Z; ct_c1 : list Z; ct_c2 : list Z }.

(** coin_tosser_exact.hpp:60-65 default constructor.  (fill, 98-102, is never called.) *)
Definition ct_default : coin_tosser := CT f32_one 0 0 [] [].

(** coin_tosser_exact.hpp:67-76 constructor from s_inv and size.
    m_hits_floor = (unsigned) floor(size * s_inv);
    m_hits_ceil_threshold = (uint32) round((double)(s_inv * size - floor(s_inv * size)) * 4294967295). *)
Definition ct_make (s_inv : float32) (size : Z) : outcome coin_tosser :=
  let x := f32_mul (f32_of_Z size) s_inv in
  let* fl := to_u32 (f32_floor x) in
  let* thr := to_u32 (f64_round (f64_mul (f64_of_f32 (f32_sub x (f32_floor x))) (f64_of_Z 4294967295))) in
  Ret (CT s_inv fl thr (replicate (Z.to_nat size) 0) (replicate (Z.to_nat size) 0)).

Section CoinTosser.
  Context (R : rnd).
  Notation G := (eG R).

  (** coin_tosser_exact.hpp:105-110 estimate_hits (unsigned addition wraps) *)
  Definition ct_estimate_hits (ct : coin_tosser) (g : G) : Z * G :=
    let '(r, g) := g_next R g in
    (u32 (ct_floor ct + (if r <? ct_thr ct then 1 else 0)), g).

  (** coin_tosser_exact.hpp:128-134: rejection loop
      for (it = 0; it < hits;) { ix = prng() % vsz; it += (cache[ix] == 0); cache[ix] = 1; }
      [fuel] bounds the number of iterations. *)
  Fixpoint ct_fill (fuel : nat) (hits it : Z) (cache : list Z) (g : G) : outcome (list Z * G) :=
    if it <? hits then
      match fuel with
      | O => OutOfFuel
      | S fuel =>
          let '(r, g) := g_next R g in
          let vsz := Z.of_nat (length cache) in
          if vsz =? 0 then UB DivByZero
          else
            let ix := Z.to_nat (r mod vsz) in
            let* c := vget cache ix in
            let* cache := vset cache ix 1 in
            ct_fill fuel hits (it + if c =? 0 then 1 else 0) cache g
      end
    else Ret (cache, g).

  (** coin_tosser_exact.hpp:113-138 tosses_ *)
  Definition ct_tosses_ (ct : coin_tosser) (cache : list Z) (g : G) : outcome (list Z * G) :=
    let cache := replicate (length cache) 0 in
    let '(hits, g) := ct_estimate_hits ct g in
    ct_fill (tfuel R) hits 0 cache g.

  (** coin_tosser_exact.hpp:85-96 tosses1, tosses2; the returned pointer is to the (updated) cache *)
  Definition ct_tosses1 (ct : coin_tosser) (g : G) : outcome (coin_tosser * G) :=
    let* '(c, g) := ct_tosses_ ct (ct_c1 ct) g in
    Ret (CT (ct_sinv ct) (ct_floor ct) (ct_thr ct) c (ct_c2 ct), g).
  Definition ct_tosses2 (ct : coin_tosser) (g : G) : outcome (coin_tosser * G) :=
    let* '(c, g) := ct_tosses_ ct (ct_c2 ct) g in
    Ret (CT (ct_sinv ct) (ct_floor ct) (ct_thr ct) (ct_c1 ct) c, g).
  (** the two argument expressions `ct.tosses1(prng), ct.tosses2(prng)` of one call,
      tsetlini_algo_classic.hpp:604,610,614, tsetlini_algo_bitwise.hpp:935,944 etc. *)
  Definition ct_tosses12 (ct : coin_tosser) (g : G) : outcome (coin_tosser * G) :=
    if ltr R then let* '(ct, g) := ct_tosses1 ct g in ct_tosses2 ct g
    else let* '(ct, g) := ct_tosses2 ct g in ct_tosses1 ct g.

  (** box_muller_approx.cpp:80-91 normal<IRNG>: mean + sqrt(variance) * (t1[u1] * t2[u2]) *)
  Definition bm_normal (mean variance : float32) (g : G) : float32 * G :=
    let '(r, g) := g_next R g in
    let n1 := f32_mul (bm1 R (r mod 256)) (bm2 R (r / 256 mod 256)) in
    (f32_add mean (f32_mul (f32_sqrt variance) n1), g).

  (** box_muller_approx.cpp:98-104 binomial<IRNG>; n * p with n unsigned converted to float *)
  Definition bm_binomial (n : Z) (p : float32) (g : G) : outcome (Z * G) :=
    let np := f32_mul (f32_of_Z n) p in
    let '(x, g) := bm_normal np (f32_mul np (f32_sub f32_one p)) g in
    let* rv := to_u32 (f32_round x) in
    Ret (Z.max 0 (Z.min rv n), g).
End CoinTosser.

(** loss_fn.cpp:16-55 make_loss_fn; the returned std::function is a Gallina function *)
Definition make_loss_fn (name : string) (C1 : float32) : outcome (float32 -> float32) :=
  if (name =? "MAE")%string || (name =? "L1")%string then Ret (fun x => f32_abs x)
  else if (name =? "MSE")%string || (name =? "L2")%string then Ret (fun x => f32_mul x x)
  else if (name =? "berHu")%string then
    Ret (fun x => if f_le (f32_abs x) C1 then f32_abs x
                  else f32_sub (f32_mul x x) (f32_add (f32_mul C1 C1) C1))
  else if (name =? "L1+2")%string then
    Ret (fun x => f32_add (f32_mul C1 (f32_abs x)) (f32_mul (f32_mul (f32_sub f32_one C1) x) x))
  else Throw ProcessExit.
