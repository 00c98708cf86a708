(** * Model of the float to text conversion (Grisu2) of nlohmann::json 3.11.2, lib/src/json/json.hpp:16805-17703 (namespace dtoa_impl),
      for double.  JSON_ASSERT is assert(): in a build without NDEBUG a failing one aborts, here [Throw AssertFailed].
      Proofs are elsewhere.  Characters are their codes. *)
From Verif Require Export Base Floats.
From stdpp Require Import list.
Local Open Scope Z_scope.

Definition u64 (z : Z) : Z := z mod 18446744073709551616.
Definition jassert (b : bool) : outcome unit := if b then Ret tt else Throw AssertFailed.

(** json.hpp:16840-16847 diyfp: f * 2^e, f a std::uint64_t *)
Record diyfp := Diy { df : Z; de : Z }.
(** 16853-16859 diyfp::sub *)
Definition diy_sub (x y : diyfp) : outcome diyfp :=
  let* _ := jassert (de x =? de y) in
  let* _ := jassert (df y <=? df x) in
  Ret (Diy (u64 (df x - df y)) (de x)).
(** 16865-16924 diyfp::mul *)
Definition diy_mul (x y : diyfp) : diyfp :=
  let u_lo := Z.land (df x) 4294967295 in
  let u_hi := Z.shiftr (df x) 32 in
  let v_lo := Z.land (df y) 4294967295 in
  let v_hi := Z.shiftr (df y) 32 in
  let p0 := u64 (u_lo * v_lo) in
  let p1 := u64 (u_lo * v_hi) in
  let p2 := u64 (u_hi * v_lo) in
  let p3 := u64 (u_hi * v_hi) in
  let p0_hi := Z.shiftr p0 32 in
  let p1_lo := Z.land p1 4294967295 in
  let p1_hi := Z.shiftr p1 32 in
  let p2_lo := Z.land p2 4294967295 in
  let p2_hi := Z.shiftr p2 32 in
  let Q := u64 (u64 (p0_hi + p1_lo + p2_lo) + 2147483648) in
  let h := u64 (p3 + p2_hi + p1_hi + Z.shiftr Q 32) in
  Diy h (de x + de y + 64).
(** 16930-16941 diyfp::normalize *)
Fixpoint diy_norm_loop (fuel : nat) (x : diyfp) : outcome diyfp :=
  match fuel with
  | O => OutOfFuel
  | S fuel => if Z.shiftr (df x) 63 =? 0 then diy_norm_loop fuel (Diy (u64 (Z.shiftl (df x) 1)) (de x - 1)) else Ret x
  end.
Definition diy_normalize (x : diyfp) : outcome diyfp :=
  let* _ := jassert (negb (df x =? 0)) in
  diy_norm_loop 65 x.
(** 16947-16955 diyfp::normalize_to; a shift by 64 or more would be undefined *)
Definition diy_normalize_to (x : diyfp) (target : Z) : outcome diyfp :=
  let delta := de x - target in
  let* _ := jassert (0 <=? delta) in
  if 64 <=? delta then UB BadShift else
  let* _ := jassert (Z.shiftr (u64 (Z.shiftl (df x) delta)) delta =? df x) in
  Ret (Diy (u64 (Z.shiftl (df x) delta)) target).

(** 16972-17037 compute_boundaries of the positive finite double m * 2^e: w, minus, plus.
    The bits of the double: a number with m < 2^52 is subnormal (biased exponent E = 0, fraction F = m), otherwise E = e + 1075 and
    F = m - 2^52. *)
Definition compute_boundaries (m e : Z) : outcome (diyfp * diyfp * diyfp) :=
  let kBias := 1075 in
  let kMinExp := 1 - kBias in
  let kHiddenBit := 4503599627370496 in
  let E := if m <? kHiddenBit then 0 else e + 1075 in
  let F := if m <? kHiddenBit then m else m - kHiddenBit in
  let is_denormal := E =? 0 in
  let v := if is_denormal then Diy F kMinExp else Diy (F + kHiddenBit) (E - kBias) in
  let lower_boundary_is_closer := (F =? 0) && (1 <? E) in
  let m_plus := Diy (u64 (2 * df v + 1)) (de v - 1) in
  let m_minus := if lower_boundary_is_closer then Diy (u64 (4 * df v - 1)) (de v - 2) else Diy (u64 (2 * df v - 1)) (de v - 1) in
  let* w_plus := diy_normalize m_plus in
  let* w_minus := diy_normalize_to m_minus (de w_plus) in
  let* w := diy_normalize v in
  Ret (w, w_minus, w_plus).

(** 17164-17253 kCachedPowers: f, e, k *)
Definition cached_powers : list (Z * Z * Z) :=
[(12353653155963782858, -1060, -300); (18408377700990114895, -1034, -292); (13715310171984221708, -1007, -284); (10218702384817765436, -980, -276);
(15227053142812498563, -954, -268); (11345038669416679861, -927, -260); (16905424996341287883, -901, -252); (12595523146049147757, -874, -244);
(9384396036005875287, -847, -236); (13983839803942852151, -821, -228); (10418772551374772303, -794, -220); (15525180923007089351, -768, -212);
(11567161174868858868, -741, -204); (17236413322193710309, -715, -196); (12842128665889583758, -688, -188); (9568131466127621947, -661, -180);
(14257626930069360058, -635, -172); (10622759856335341974, -608, -164); (15829145694278690180, -582, -156); (11793632577567316726, -555, -148);
(17573882009934360870, -529, -140); (13093562431584567480, -502, -132); (9755464219737475723, -475, -124); (14536774485912137811, -449, -116);
(10830740992659433045, -422, -108); (16139061738043178685, -396, -100); (12024538023802026127, -369, -92); (17917957937422433684, -343, -84);
(13349918974505688015, -316, -76); (9946464728195732843, -289, -68); (14821387422376473014, -263, -60); (11042794154864902060, -236, -52);
(16455045573212060422, -210, -44); (12259964326927110867, -183, -36); (18268770466636286478, -157, -28); (13611294676837538539, -130, -20);
(10141204801825835212, -103, -12); (15111572745182864684, -77, -4); (11258999068426240000, -50, 4); (16777216000000000000, -24, 12);
(12500000000000000000, 3, 20); (9313225746154785156, 30, 28); (13877787807814456755, 56, 36); (10339757656912845936, 83, 44); (15407439555097886824,
109, 52); (11479437019748901445, 136, 60); (17105694144590052135, 162, 68); (12744735289059618216, 189, 76); (9495567745759798747, 216, 84);
(14149498560666738074, 242, 92); (10542197943230523224, 269, 100); (15709099088952724970, 295, 108); (11704190886730495818, 322, 116);
(17440603504673385349, 348, 124); (12994262207056124023, 375, 132); (9681479787123295682, 402, 140); (14426529090290212157, 428, 148);
(10748601772107342003, 455, 156); (16016664761464807395, 481, 164); (11933345169920330789, 508, 172); (17782069995880619868, 534, 180);
(13248674568444952270, 561, 188); (9871031767461413346, 588, 196); (14708983551653345445, 614, 204); (10959046745042015199, 641, 212);
(16330252207878254650, 667, 220); (12166986024289022870, 694, 228); (18130221999122236476, 720, 236); (13508068024458167312, 747, 244);
(10064294952495520794, 774, 252); (14996968138956309548, 800, 260); (11173611982879273257, 827, 268); (16649979327439178909, 853, 276);
(12405201291620119593, 880, 284); (9242595204427927429, 907, 292); (13772540099066387757, 933, 300); (10261342003245940623, 960, 308);
(15290591125556738113, 986, 316); (11392378155556871081, 1013, 324)].
(** 17112-17268 get_cached_power_for_binary_exponent; kAlpha = -60, kGamma = -32 *)
Definition get_cached_power (e : Z) : outcome (Z * Z * Z) :=
  let* _ := jassert (-1500 <=? e) in
  let* _ := jassert (e <=? 1500) in
  let f := -60 - e - 1 in
  let k := Z.quot (f * 78913) 262144 + (if 0 <? f then 1 else 0) in
  let index := Z.quot (300 + k + (8 - 1)) 8 in
  let* _ := jassert (0 <=? index) in
  let* _ := jassert (index <? 79) in
  let* '(cf, ce, ck) := vget cached_powers (Z.to_nat index) in
  let* _ := jassert (-60 <=? ce + e + 64) in
  let* _ := jassert (ce + e + 64 <=? -32) in
  Ret (cf, ce, ck).

(** 17274-17327 find_largest_pow10: the power and the number of digits *)
Definition find_largest_pow10 (n : Z) : Z * Z :=
  if 1000000000 <=? n then (1000000000, 10) else if 100000000 <=? n then (100000000, 9) else if 10000000 <=? n then (10000000, 8)
  else if 1000000 <=? n then (1000000, 7) else if 100000 <=? n then (100000, 6) else if 10000 <=? n then (10000, 5)
  else if 1000 <=? n then (1000, 4) else if 100 <=? n then (100, 3) else if 10 <=? n then (10, 2) else (1, 1).

(** 17329-17364 grisu2_round.  [digits] is buf[0..len-1) and [last] is buf[len - 1].  The loop stops at the latest when the last digit has
    come down to '0'. *)
Fixpoint round_loop (fuel : nat) (last dist delta rest ten_k : Z) : outcome Z :=
  match fuel with
  | O => OutOfFuel
  | S fuel =>
      if (rest <? dist) && (ten_k <=? u64 (delta - rest)) && ((u64 (rest + ten_k) <? dist) || (u64 (u64 (rest + ten_k) - dist) <? u64 (dist - rest)))
      then let* _ := jassert (negb (last =? 48)) in round_loop fuel (last - 1) dist delta (u64 (rest + ten_k)) ten_k
      else Ret last
  end.
Definition grisu2_round (digits : list Z) (last dist delta rest ten_k : Z) : outcome (list Z) :=
  let* _ := jassert (dist <=? delta) in
  let* _ := jassert (rest <=? delta) in
  let* _ := jassert (0 <? ten_k) in
  let* last := round_loop 11 last dist delta rest ten_k in
  Ret (digits ++ [last]).

(** 17431-17490: the loop over the digits of the integral part; [ne] is -one.e.
    Some = it returned (the buffer and decimal_exponent), None = the loop ended: the buffer. *)
Fixpoint int_digits (fuel : nat) (n p1 p2 pow10 ne dist delta : Z) (buf : list Z) (dexp : Z) : outcome (list Z * option Z) :=
  match fuel with
  | O => OutOfFuel
  | S fuel =>
      if 0 <? n then
        if pow10 =? 0 then UB DivByZero else
        let d := p1 / pow10 in
        let r := p1 mod pow10 in
        let* _ := jassert (d <=? 9) in
        let n := n - 1 in
        let rest := u64 (u64 (Z.shiftl r ne) + p2) in
        if rest <=? delta then
          let* b := grisu2_round buf (48 + d) dist delta rest (u64 (Z.shiftl pow10 ne)) in
          Ret (b, Some (dexp + n))
        else int_digits fuel n r p2 (pow10 / 10) ne dist delta (buf ++ [48 + d]) dexp
      else Ret (buf, None)
  end.
(** 17528-17588: the loop over the digits of the fractional part *)
Fixpoint frac_digits (fuel : nat) (m p2 ne dist delta : Z) (buf : list Z) (dexp : Z) : outcome (list Z * Z) :=
  match fuel with
  | O => OutOfFuel
  | S fuel =>
      let* _ := jassert (p2 <=? 1844674407370955161) in
      let p2 := u64 (p2 * 10) in
      let d := Z.shiftr p2 ne in
      let r := Z.land p2 (u64 (Z.shiftl 1 ne) - 1) in
      let* _ := jassert (d <=? 9) in
      let m := m + 1 in
      let delta := u64 (delta * 10) in
      let dist := u64 (dist * 10) in
      if r <=? delta then
        let* b := grisu2_round buf (48 + d) dist delta r (u64 (Z.shiftl 1 ne)) in
        Ret (b, dexp - m)
      else frac_digits fuel m r ne dist delta (buf ++ [48 + d]) dexp
  end.
(** 17370-17603 grisu2_digit_gen *)
Definition grisu2_digit_gen (dexp : Z) (M_minus w M_plus : diyfp) : outcome (list Z * Z) :=
  let* _ := jassert (-60 <=? de M_plus) in
  let* _ := jassert (de M_plus <=? -32) in
  let* delta := diy_sub M_plus M_minus in
  let* dist := diy_sub M_plus w in
  let ne := - de M_plus in
  let one := u64 (Z.shiftl 1 ne) in
  let p1 := u32 (Z.shiftr (df M_plus) ne) in
  let p2 := Z.land (df M_plus) (one - 1) in
  let* _ := jassert (0 <? p1) in
  let '(pow10, k) := find_largest_pow10 p1 in
  let* '(buf, res) := int_digits 11 k p1 p2 pow10 ne (df dist) (df delta) [] dexp in
  match res with
  | Some dexp => Ret (buf, dexp)
  | None =>
      let* _ := jassert (df delta <? p2) in
      frac_digits 20 0 p2 ne (df dist) (df delta) buf dexp
  end.
(** 17611-17662 grisu2 (of the boundaries) *)
Definition grisu2_of (m_minus v m_plus : diyfp) : outcome (list Z * Z) :=
  let* _ := jassert (de m_plus =? de m_minus) in
  let* _ := jassert (de m_plus =? de v) in
  let* '(cf, ce, ck) := get_cached_power (de m_plus) in
  let c := Diy cf ce in
  let w := diy_mul v c in
  let w_minus := diy_mul m_minus c in
  let w_plus := diy_mul m_plus c in
  let M_minus := Diy (u64 (df w_minus + 1)) (de w_minus) in
  let M_plus := Diy (u64 (df w_plus - 1)) (de w_plus) in
  grisu2_digit_gen (- ck) M_minus w M_plus.
(** 17670-17703 grisu2 (of the value): the digits and the decimal exponent *)
Definition grisu2 (x : float64) : outcome (list Z * Z) :=
  match x with
  | S754_finite false m e =>
      let* '(w, minus, plus) := compute_boundaries (Zpos m) e in
      grisu2_of minus w plus
  | _ => Throw AssertFailed
  end.
