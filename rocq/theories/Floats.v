(** * IEEE 754 arithmetic as used by the library: real_type = float (binary32), double (binary64) for one product.

    Values are Coq's [spec_float] (stdlib SpecFloat: executable, axiom free, round-to-nearest-even), with
    precision 24 / emax 128 for float and 53 / 1024 for double. Not modelled: excess precision or FMA contraction
    (the build sets no such flags), NaN payloads, floating-point exceptions flags. *)
From Verif Require Import Base.
From Coq Require Export ZArith Floats.SpecFloat.
Local Open Scope Z_scope.

Definition float32 := spec_float.
Definition float64 := spec_float.

Definition f32_add : float32 -> float32 -> float32 := SFadd 24 128.
Definition f32_sub : float32 -> float32 -> float32 := SFsub 24 128.
Definition f32_mul : float32 -> float32 -> float32 := SFmul 24 128.
Definition f32_div : float32 -> float32 -> float32 := SFdiv 24 128.
Definition f32_sqrt : float32 -> float32 := SFsqrt 24 128.
Definition f32_abs : float32 -> float32 := SFabs.
(** conversion of an integer (of any C++ integer type) to float *)
Definition f32_of_Z (z : Z) : float32 := binary_normalize 24 128 z 0 false.

Definition f64_mul : float64 -> float64 -> float64 := SFmul 53 1024.
Definition f64_of_Z (z : Z) : float64 := binary_normalize 53 1024 z 0 false.

Definition cond_neg (s : bool) (z : Z) : Z := if s then - z else z.

(** float -> double (exact) *)
Definition f64_of_f32 (x : float32) : float64 :=
  match x with
  | S754_finite s m e => binary_normalize 53 1024 (cond_neg s (Zpos m)) e s
  | _ => x
  end.

(** a > b, a < b, a <= b; false when unordered *)
Definition f_gt (a b : spec_float) : bool := SFltb b a.
Definition f_lt (a b : spec_float) : bool := SFltb a b.
Definition f_le (a b : spec_float) : bool := SFleb a b.
Definition f_ge (a b : spec_float) : bool := SFleb b a.

(** integer parts of the value m * 2^e *)
Definition floor_pair (s : bool) (m : positive) (e : Z) : Z :=
  if 0 <=? e then cond_neg s (Zpos m) * 2 ^ e else cond_neg s (Zpos m) / 2 ^ (- e).
Definition trunc_pair (s : bool) (m : positive) (e : Z) : Z :=
  if 0 <=? e then cond_neg s (Zpos m) * 2 ^ e else cond_neg s (Zpos m / 2 ^ (- e)).
Definition round_pair (s : bool) (m : positive) (e : Z) : Z :=   (* half away from zero *)
  if 0 <=? e then cond_neg s (Zpos m) * 2 ^ e
  else cond_neg s ((2 * Zpos m + 2 ^ (- e)) / 2 ^ (1 - e)).

(** std::floor / std::round on float (exact, since integral results are representable); sign of zero kept *)
Definition f32_floor (x : float32) : float32 :=
  match x with
  | S754_finite s m e => if 0 <=? e then x else binary_normalize 24 128 (floor_pair s m e) 0 s
  | _ => x
  end.
Definition f32_round (x : float32) : float32 :=
  match x with
  | S754_finite s m e => if 0 <=? e then x else binary_normalize 24 128 (round_pair s m e) 0 s
  | _ => x
  end.
Definition f64_round (x : float64) : float64 :=
  match x with
  | S754_finite s m e => if 0 <=? e then x else binary_normalize 53 1024 (round_pair s m e) 0 s
  | _ => x
  end.

(** conversion to unsigned int: truncation, UB when the truncated value is not representable (or NaN / infinite) *)
Definition to_u32 (x : spec_float) : outcome Z :=
  match x with
  | S754_zero _ => Ret 0
  | S754_finite s m e =>
      let z := trunc_pair s m e in
      if (0 <=? z) && (z <=? 4294967295) then Ret z else UB FloatToInt
  | _ => UB FloatToInt
  end.

Definition is_finite_sf (x : spec_float) : bool :=
  match x with S754_zero _ | S754_finite _ _ _ => true | _ => false end.

(** frequently used constants *)
Definition f32_one : float32 := f32_of_Z 1.
Definition f32_half : float32 := S754_finite false 8388608 (-24).
(** 1.0f / 4294967296.0f = 2^-32 *)
Definition f32_2pm32 : float32 := f32_div f32_one (f32_of_Z 4294967296).
Definition f64_half : float64 := S754_finite false 4503599627370496 (-53).

Example f32_half_is_half : f32_div f32_one (f32_of_Z 2) = f32_half. Proof. reflexivity. Qed.
Example f64_half_is_half : f64_of_f32 f32_half = f64_half. Proof. reflexivity. Qed.
Example f32_round_ex : map f32_round [f32_half; f32_div (f32_of_Z 5) (f32_of_Z 2); f32_div (f32_of_Z (-7)) (f32_of_Z 2)]
  = map f32_of_Z [1; 3; -4]. Proof. reflexivity. Qed.
Example f32_floor_ex : map f32_floor [f32_div (f32_of_Z 5) (f32_of_Z 2); f32_div (f32_of_Z (-7)) (f32_of_Z 2)]
  = map f32_of_Z [2; -4]. Proof. reflexivity. Qed.
