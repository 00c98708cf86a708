(** * Integer facts about the model of Grisu2 (Grisu.v). *)
From Verif Require Import Base Floats Grisu.
From stdpp Require Import list.
From Coq Require Import ZArith Lia Psatz.
Local Open Scope Z_scope.

Lemma u64_id z : 0 <= z < 18446744073709551616 -> u64 z = z.
Proof. intros. unfold u64. by apply Z.mod_small. Qed.
Lemma jassert_true b : b = true -> jassert b = Ret tt.
Proof. by intros ->. Qed.
Lemma shiftr_div z k : 0 <= k -> Z.shiftr z k = z / 2 ^ k.
Proof. apply Z.shiftr_div_pow2. Qed.
Lemma land_mod z k : 0 <= k -> Z.land z (2 ^ k - 1) = z mod 2 ^ k.
Proof. intros. rewrite <- Z.land_ones by done. f_equal. rewrite Z.ones_equiv. lia. Qed.

(** ** Multiplication: rounded to nearest, ties up *)
Lemma diy_mul_spec x y : 0 <= df x < 2 ^ 64 -> 0 <= df y < 2 ^ 64 ->
  diy_mul x y = Diy ((df x * df y + 2 ^ 63) / 2 ^ 64) (de x + de y + 64).
Proof.
  destruct x as [f xe], y as [g ye]. cbn [df de]. intros Hf Hg. unfold diy_mul. cbn [df de]. cbv zeta.
  change 4294967295 with (2 ^ 32 - 1). rewrite !land_mod, !shiftr_div by lia.
  change (2 ^ 32) with 4294967296 in *. change (2 ^ 64) with 18446744073709551616 in *. change (2 ^ 63) with 9223372036854775808 in *.
  pose proof (Z.div_mod f 4294967296 ltac:(lia)) as Ef. pose proof (Z.mod_pos_bound f 4294967296 ltac:(lia)) as Ba.
  pose proof (Z.div_mod g 4294967296 ltac:(lia)) as Eg. pose proof (Z.mod_pos_bound g 4294967296 ltac:(lia)) as Bc.
  set (a := f mod 4294967296) in *. set (b := f / 4294967296) in *. set (c := g mod 4294967296) in *. set (d := g / 4294967296) in *.
  assert (0 <= b < 4294967296) as Bb by lia. assert (0 <= d < 4294967296) as Bd by lia.
  assert (0 <= a * c <= 4294967295 * 4294967295) as Bac by nia. assert (0 <= a * d <= 4294967295 * 4294967295) as Bad by nia.
  assert (0 <= b * c <= 4294967295 * 4294967295) as Bbc by nia. assert (0 <= b * d <= 4294967295 * 4294967295) as Bbd by nia.
  rewrite (u64_id (a * c)), (u64_id (a * d)), (u64_id (b * c)), (u64_id (b * d)) by lia.
  assert (f * g = (b * d) * 18446744073709551616 + (a * d + b * c) * 4294967296 + a * c) as Efg by (rewrite Ef, Eg; ring).
  rewrite Efg. generalize dependent (a * c). generalize dependent (a * d). generalize dependent (b * c). generalize dependent (b * d).
  clear. intros BD Hbd BC Hbc AD Had AC Hac _.
  pose proof (Z.div_mod AC 4294967296 ltac:(lia)) as E0. pose proof (Z.mod_pos_bound AC 4294967296 ltac:(lia)) as B0.
  pose proof (Z.div_mod AD 4294967296 ltac:(lia)) as E1. pose proof (Z.mod_pos_bound AD 4294967296 ltac:(lia)) as B1.
  pose proof (Z.div_mod BC 4294967296 ltac:(lia)) as E2. pose proof (Z.mod_pos_bound BC 4294967296 ltac:(lia)) as B2.
  set (q0 := AC / 4294967296) in *. set (r0 := AC mod 4294967296) in *. set (q1 := AD / 4294967296) in *. set (r1 := AD mod 4294967296) in *.
  set (q2 := BC / 4294967296) in *. set (r2 := BC mod 4294967296) in *. clearbody q0 r0 q1 r1 q2 r2.
  rewrite (u64_id (q0 + r1 + r2)) by lia. rewrite (u64_id (q0 + r1 + r2 + 2147483648)) by lia.
  pose proof (Z.div_mod (q0 + r1 + r2 + 2147483648) 4294967296 ltac:(lia)) as E3.
  pose proof (Z.mod_pos_bound (q0 + r1 + r2 + 2147483648) 4294967296 ltac:(lia)) as B3.
  set (q3 := (q0 + r1 + r2 + 2147483648) / 4294967296) in *. set (r3 := (q0 + r1 + r2 + 2147483648) mod 4294967296) in *. clearbody q3 r3.
  rewrite u64_id by lia. f_equal. apply Z.div_unique with (r := r3 * 4294967296 + r0); lia.
Qed.
Lemma mul_bounds f g : 0 <= f -> 0 <= g -> let h := (f * g + 2 ^ 63) / 2 ^ 64 in
  2 * h * 2 ^ 64 <= 2 * (f * g) + 2 ^ 64 /\ 2 * (f * g) < 2 * h * 2 ^ 64 + 2 ^ 64.
Proof. intros Hf Hg h. subst h. change (2 ^ 63) with 9223372036854775808. change (2 ^ 64) with 18446744073709551616. Z.to_euclidean_division_equations. lia. Qed.

(** ** Normalization *)
Lemma norm_loop_spec fuel : forall x, 0 < df x < 2 ^ 64 -> 2 ^ 64 <= df x * 2 ^ Z.of_nat fuel ->
  exists s, diy_norm_loop fuel x = Ret (Diy (df x * 2 ^ s) (de x - s)) /\ 0 <= s /\ 2 ^ 63 <= df x * 2 ^ s < 2 ^ 64.
Proof.
  induction fuel as [|fuel IH]; intros [f e] Hf Hs; cbn [df de] in *; [change (2 ^ Z.of_nat 0) with 1 in Hs; lia|].
  cbn [diy_norm_loop df de]. rewrite shiftr_div by lia. change (2 ^ 64) with 18446744073709551616 in *. change (2 ^ 63) with 9223372036854775808 in *.
  destruct (Z.eqb_spec (f / 9223372036854775808) 0) as [Ez|Nz].
  - assert (f < 9223372036854775808) by (Z.to_euclidean_division_equations; lia).
    rewrite Z.shiftl_mul_pow2 by lia. change (2 ^ 1) with 2. rewrite u64_id by lia.
    destruct (IH (Diy (f * 2) (e - 1))) as (s & E & Hs0 & Hb); cbn [df de] in *.
    + lia.
    + rewrite Nat2Z.inj_succ, Z.pow_succ_r in Hs by lia. lia.
    + exists (s + 1). rewrite E. rewrite Z.pow_add_r by lia. change (2 ^ 1) with 2.
      replace (f * (2 ^ s * 2)) with (f * 2 * 2 ^ s) by lia. split; [do 2 f_equal; lia|]. split; [lia|done].
  - exists 0. change (2 ^ 0) with 1. rewrite Z.mul_1_r, Z.sub_0_r. split; [done|]. split; [lia|]. Z.to_euclidean_division_equations. lia.
Qed.
Lemma normalize_spec f e : 0 < f < 2 ^ 64 -> exists s, diy_normalize (Diy f e) = Ret (Diy (f * 2 ^ s) (e - s)) /\ 0 <= s /\ 2 ^ 63 <= f * 2 ^ s < 2 ^ 64.
Proof.
  intros Hf. unfold diy_normalize. cbn [df]. rewrite jassert_true by (destruct (Z.eqb_spec f 0); [lia|done]). cbn [obind].
  destruct (norm_loop_spec 65 (Diy f e)) as (s & E & H); cbn [df de] in *; [done| |by exists s]. change (2 ^ Z.of_nat 65) with (2 ^ 64 * 2). lia.
Qed.
Lemma normalize_to_spec f e s : 0 <= f -> 0 <= s < 64 -> f * 2 ^ s < 2 ^ 64 -> diy_normalize_to (Diy f e) (e - s) = Ret (Diy (f * 2 ^ s) (e - s)).
Proof.
  intros Hf Hs Hb. unfold diy_normalize_to. cbn [df de]. replace (e - (e - s)) with s by lia.
  rewrite jassert_true by (by apply Z.leb_le; lia). cbn [obind]. destruct (Z.leb_spec 64 s); [lia|].
  rewrite Z.shiftl_mul_pow2 by lia. assert (0 < 2 ^ s) by (apply Z.pow_pos_nonneg; lia). rewrite u64_id by (change 18446744073709551616 with (2 ^ 64); nia).
  rewrite shiftr_div by lia. rewrite Z.div_mul by lia. by rewrite jassert_true by (by apply Z.eqb_eq).
Qed.

(** the boundaries of m * 2^e, all scaled to the same exponent *)
Definition closer (m e : Z) : bool := (m =? 4503599627370496) && (-1074 <? e).
Lemma pow2_two_le s t : 0 <= s -> 2 ^ s < 2 ^ t -> s < t.
Proof. intros Hs H. apply Z.nle_gt. intros C. pose proof (Z.pow_le_mono_r 2 t s ltac:(lia) C). lia. Qed.
Lemma norm_unique f a b : 0 < f -> 0 <= a -> 0 <= b -> 2 ^ 63 <= f * 2 ^ a < 2 ^ 64 -> 2 ^ 63 <= f * 2 ^ b < 2 ^ 64 -> a = b.
Proof.
  intros Hf Ha Hb. revert a b Ha Hb.
  assert (forall a b, 0 <= a -> a < b -> 2 ^ 63 <= f * 2 ^ a < 2 ^ 64 -> 2 ^ 63 <= f * 2 ^ b < 2 ^ 64 -> False) as W.
  { intros a b Ha L H1 H2. assert (2 * 2 ^ a <= 2 ^ b).
    { replace (2 * 2 ^ a) with (2 ^ (a + 1)) by (rewrite Z.pow_add_r by lia; change (2 ^ 1) with 2; lia). apply Z.pow_le_mono_r; lia. }
    change (2 ^ 64) with (2 * 2 ^ 63) in *. nia. }
  intros a b Ha Hb H1 H2. destruct (Z.lt_trichotomy a b) as [L|[E|L]]; [|done|]; exfalso; [by apply (W a b)|by apply (W b a)].
Qed.
Lemma boundaries_spec m e : 0 < m < 2 ^ 53 -> -1074 <= e <= 971 -> (m < 2 ^ 52 -> e = -1074) ->
  exists s, compute_boundaries m e = Ret (Diy (m * 2 ^ s) (e - s),
                                          Diy (if closer m e then (4 * m - 1) * 2 ^ (s - 2) else (2 * m - 1) * 2 ^ (s - 1)) (e - s),
                                          Diy ((2 * m + 1) * 2 ^ (s - 1)) (e - s)) /\
    11 <= s <= 63 /\ 2 ^ 63 <= m * 2 ^ s < 2 ^ 64 /\ (2 * m + 1) * 2 ^ (s - 1) < 2 ^ 64.
Proof.
  intros Hm He Hsub. unfold compute_boundaries. change (2 ^ 52) with 4503599627370496 in *. change (2 ^ 53) with 9007199254740992 in *. cbv zeta.
  set (v := if (if m <? 4503599627370496 then 0 else e + 1075) =? 0 then _ else _).
  assert (v = Diy m e) as ->.
  { subst v. destruct (Z.ltb_spec m 4503599627370496).
    - cbn [Z.eqb]. rewrite Hsub by lia. reflexivity.
    - destruct (Z.eqb_spec (e + 1075) 0); [lia|]. f_equal; lia. }
  cbn [df de].
  assert (((if m <? 4503599627370496 then m else m - 4503599627370496) =? 0) && (1 <? (if m <? 4503599627370496 then 0 else e + 1075)) = closer m e) as ->.
  { unfold closer. destruct (Z.ltb_spec m 4503599627370496).
    - destruct (Z.eqb_spec m 0); [lia|]. destruct (Z.eqb_spec m 4503599627370496); [lia|done].
    - destruct (Z.eqb_spec (m - 4503599627370496) 0), (Z.eqb_spec m 4503599627370496); lia. }
  rewrite (u64_id (2 * m + 1)), (u64_id (4 * m - 1)), (u64_id (2 * m - 1)) by lia.
  destruct (normalize_spec (2 * m + 1) (e - 1)) as (s & Es & Hs & Hb); [change (2 ^ 64) with 18446744073709551616; lia|].
  destruct (normalize_spec m e) as (s' & Es' & Hs' & Hb'); [change (2 ^ 64) with 18446744073709551616; lia|].
  (* the exponents agree *)
  assert (1 <= s' <= 63) as R'.
  { split.
    - destruct (Z.eq_dec s' 0) as [->|]; [|lia]. change (2 ^ 0) with 1 in Hb'. change (2 ^ 63) with 9223372036854775808 in Hb'. lia.
    - apply (pow2_two_le s' 64) in Hs'; [lia|]. change (2 ^ 64) with 18446744073709551616 in *. nia. }
  assert (m * 2 ^ s' + 2 ^ s' <= 2 ^ 64) as D'.
  { replace (2 ^ 64) with (2 ^ (64 - s') * 2 ^ s') in * by (rewrite <- Z.pow_add_r by lia; f_equal; lia).
    assert (0 < 2 ^ s') by (apply Z.pow_pos_nonneg; lia). assert (m < 2 ^ (64 - s')) by (apply Z.mul_lt_mono_pos_r with (p := 2 ^ s'); lia). nia. }
  assert (2 ^ s' = 2 * 2 ^ (s' - 1)) as E'. { replace s' with (s' - 1 + 1) at 1 by lia. rewrite Z.pow_add_r by lia. change (2 ^ 1) with 2. lia. }
  assert (0 < 2 ^ (s' - 1)) as P' by (apply Z.pow_pos_nonneg; lia).
  assert (s' = s + 1) as ->.
  { assert (s = s' - 1); [|lia]. rewrite E' in D', Hb'. apply (norm_unique (2 * m + 1)); lia. }
  clear E' P' D'.
  assert (2 ^ (s + 1) = 2 * 2 ^ s) as E1 by (rewrite Z.pow_add_r by lia; change (2 ^ 1) with 2; lia).
  assert (0 < 2 ^ s) as P by (apply Z.pow_pos_nonneg; lia).
  assert (10 <= s <= 62) as Rs.
  { split.
    - assert (2 ^ 9 < 2 ^ s); [|apply (Z.pow_lt_mono_r_iff 2) in H; lia]. rewrite E1 in Hb'. change (2 ^ 63) with 9223372036854775808 in *. change (2 ^ 9) with 512. nia.
    - assert (2 ^ s < 2 ^ 63); [|apply (Z.pow_lt_mono_r_iff 2) in H; lia]. rewrite E1 in Hb'. change (2 ^ 63) with 9223372036854775808 in *. change (2 ^ 64) with 18446744073709551616 in *. nia. }
  exists (s + 1). rewrite Es. cbn [obind de]. replace (s + 1 - 1) with s by lia. replace (s + 1 - 2) with (s - 1) by lia.
  replace (e - 1 - s) with (e - (s + 1)) by lia.
  split; [|repeat split; try lia; tauto].
  assert (2 ^ s = 2 * 2 ^ (s - 1)) as E2. { replace s with (s - 1 + 1) at 1 by lia. rewrite Z.pow_add_r by lia. change (2 ^ 1) with 2. lia. }
  destruct (closer m e).
  - replace (e - (s + 1)) with (e - 2 - (s - 1)) at 1 by lia. rewrite normalize_to_spec; [|lia|lia|nia]. cbn [obind]. rewrite Es'. cbn [obind].
    do 4 f_equal. lia.
  - replace (e - (s + 1)) with (e - 1 - s) at 1 by lia. rewrite normalize_to_spec; [|lia|lia|nia]. cbn [obind]. rewrite Es'. cbn [obind].
    do 4 f_equal. lia.
Qed.

(** ** The cached powers *)
Definition power_ok (p : Z * Z * Z) : bool :=
  let '(f, e, k) := p in
  let a := f * 2 ^ Z.max e 0 * 10 ^ Z.max (- k) 0 in
  let b := 10 ^ Z.max k 0 * 2 ^ Z.max (- e) 0 in
  let u := 2 ^ Z.max e 0 * 10 ^ Z.max (- k) 0 in
  (9223372036854775808 <=? f) && (f <? 18446744073709551616) && (2 * Z.abs (a - b) <=? u) && (-300 <=? k) && (k <=? 324).
Definition cached_ok (e : Z) : bool :=
  match get_cached_power e with
  | Ret (f, c, k) => power_ok (f, c, k) && (-60 <=? c + e + 64) && (c + e + 64 <=? -32)
  | _ => false
  end.
Definition cached_range (e : Z) : bool :=
  match get_cached_power e with
  | Ret (f, c, k) => (-60 <=? c + e + 64) && (c + e + 64 <=? -32)
  | _ => false
  end.
Lemma power_all : forallb power_ok cached_powers = true.
Proof. vm_compute. reflexivity. Qed.
Lemma cached_all : forallb (fun i => cached_range (Z.of_nat i - 1137)) (seq 0 2098) = true.
Proof. vm_compute. reflexivity. Qed.
Lemma cached_in e p : get_cached_power e = Ret p -> In p cached_powers.
Proof.
  unfold get_cached_power. cbv zeta. intros E.
  do 4 apply obind_ret_inv in E as (? & _ & E).
  apply obind_ret_inv in E as ([[f c] k] & V & E).
  do 2 apply obind_ret_inv in E as (? & _ & E).
  assert (p = (f, c, k)) as -> by congruence.
  unfold vget in V. destruct (cached_powers !! _) as [q|] eqn:L; [|discriminate V].
  apply elem_of_list_In, elem_of_list_lookup. eexists. rewrite L. f_equal. congruence.
Qed.
Lemma cached_spec e : -1137 <= e <= 960 -> cached_ok e = true.
Proof.
  intros He. pose proof cached_all as H. rewrite forallb_forall in H. specialize (H (Z.to_nat (e + 1137))).
  replace (Z.of_nat (Z.to_nat (e + 1137)) - 1137) with e in H by lia.
  assert (cached_range e = true) as C by (apply H, in_seq; lia). clear H.
  pose proof power_all as P. rewrite forallb_forall in P.
  unfold cached_range in C. unfold cached_ok. pose proof (cached_in e) as M.
  destruct (get_cached_power e) as [[[f c] k]| | |]; try discriminate C.
  rewrite (P _ (M _ eq_refl)). exact C.
Qed.
