(** * Grisu2 (Grisu.v): the digits it writes denote a decimal number whose nearest double is the one written. *)
From stdpp Require Import tactics list.
From Verif Require Import Base Floats Grisu GrisuFacts.
From Verif Require Import FloatBase JsonGrammar GrisuDigits DecFloat.
From Coq Require Import ZArith Reals Psatz.
From Flocq Require Import Core.Core Core.Digits.
From Flocq Require Import BinarySingleNaN.
From stdpp Require Import list.
Local Open Scope Z_scope.

Local Instance prec53 : Prec_gt_0 53 := eq_refl.
Local Instance emax1024 : Prec_lt_emax 53 1024 := eq_refl.
Notation fexp64 := (SpecFloat.fexp 53 1024).

(** ** Shape of doubles *)
Lemma valid_shape m e : SpecFloat.valid_binary 53 1024 (S754_finite false m e) = true ->
  0 < Zpos m < 2 ^ 53 /\ -1074 <= e <= 971 /\ (Zpos m < 2 ^ 52 -> e = -1074).
Proof.
  intros V. pose proof (mant_lt 53 1024 _ _ _ V) as Hm. cbn in V.
  apply andb_prop in V as [Vc Ve]. apply Zle_bool_imp_le in Ve. apply Zeq_bool_eq in Vc. rewrite Zpos_digits2_pos in Vc.
  unfold SpecFloat.fexp, SpecFloat.emin in Vc. pose proof (Zdigits_correct radix2 (Zpos m)) as D. cbn [Z.abs] in D.
  change (Zpower radix2) with (Z.pow 2) in D. set (d := Zdigits radix2 (Zpos m)) in *. clearbody d.
  split; [lia|]. split; [lia|]. intros Hs. assert (d <= 52); [|lia]. apply Z.nlt_ge. intros C.
  assert (2 ^ 52 <= 2 ^ (d - 1)) by (apply Z.pow_le_mono_r; lia). lia.
Qed.

(** ** Every real strictly between the midpoints rounds to the double *)
Lemma round_between m e r : SpecFloat.valid_binary 53 1024 (S754_finite false m e) = true ->
  (F2R (Float radix2 (if closer (Zpos m) e then 4 * Zpos m - 1 else 2 * (2 * Zpos m - 1)) (e - 2)) < r < F2R (Float radix2 (2 * (2 * Zpos m + 1)) (e - 2)))%R ->
  rnd64 r = val (S754_finite false m e).
Proof.
  intros V [Hl Hu]. pose proof (valid_shape m e V) as (Hm & He & Hs).
  assert (fin 53 1024 (S754_finite false m e)) as Fin by (split; [exact V|done]).
  pose proof (fin_fmt 53 1024 _ Fin) as Fv. unfold fmt in Fv.
  assert (val (S754_finite false m e) = F2R (Float radix2 (Zpos m) e)) as Ev by done.
  set (v := val (S754_finite false m e)) in *.
  assert (0 < v)%R as Pv. { rewrite Ev. by apply F2R_gt_0. }
  assert (forall z, F2R (Float radix2 z (e - 2)) = IZR z * (bpow radix2 e / 4))%R as F4.
  { intros z. unfold F2R. cbn [Fnum Fexp]. unfold Zminus. rewrite bpow_plus. change (bpow radix2 (- (2))) with (/ 4)%R. unfold Rdiv. ring. }
  rewrite F4 in Hl, Hu. assert (v = IZR (Zpos m) * bpow radix2 e)%R as Ev' by (by rewrite Ev). pose proof (bpow_gt_0 radix2 e) as Hb.
  (* the exponent of v *)
  assert (cexp radix2 fexp64 v = e) as Ec.
  { unfold cexp. cbn in V. apply andb_prop in V as [Vc _]. apply Zeq_bool_eq in Vc. rewrite Zpos_digits2_pos in Vc.
    rewrite Ev, mag_F2R_Zdigits by done. exact Vc. }
  assert (ulp radix2 fexp64 v = bpow radix2 e) as Eu by (rewrite ulp_neq_0 by lra; by rewrite Ec).
  pose proof (round_N_pt radix2 fexp64 (fun x => negb (Z.even x)) r) as [Fr Nr]. specialize (Nr v Fv).
  set (x := rnd64 r) in *.
  destruct (Rtotal_order x v) as [L|[E|G]]; [|done|]; exfalso.
  - (* below *)
    assert (x <= Ulp.pred radix2 fexp64 v)%R as Lp by (apply pred_ge_gt; [typeclasses eauto|assumption..]).
    rewrite pred_eq_pos in Lp by lra. unfold pred_pos in Lp.
    assert (x <= (if closer (Zpos m) e then v - bpow radix2 e / 2 else v - bpow radix2 e))%R as Lx.
    { unfold closer. destruct (Z.eqb_spec (Zpos m) 4503599627370496) as [Em|Nm].
      - assert (v = bpow radix2 (52 + e)) as Eb. { rewrite bpow_plus, Ev', Em. f_equal. }
        assert (mag radix2 v - 1 = 52 + e) as Emag. { rewrite Eb, mag_bpow. lia. }
        rewrite Emag in Lp. rewrite Req_bool_true in Lp by done. unfold SpecFloat.fexp, SpecFloat.emin in Lp.
        destruct (Z.ltb_spec (-1074) e); cbn [andb].
        + replace (Z.max (52 + e - 53) (3 - 1024 - 53)) with (e - 1) in Lp by lia. unfold Zminus in Lp. rewrite bpow_plus in Lp. change (bpow radix2 (- (1))) with (/ 2)%R in Lp. lra.
        + replace (Z.max (52 + e - 53) (3 - 1024 - 53)) with e in Lp by lia. lra.
      - cbn [andb]. destruct (Req_bool_spec v (bpow radix2 (mag radix2 v - 1))) as [Eb|_]; [|by rewrite Eu in Lp].
        assert (fexp64 (mag radix2 v - 1) = e) as Ef; [|by rewrite Ef in Lp].
        assert (mag radix2 v = Zdigits radix2 (Zpos m) + e :> Z) as Emag by (by rewrite Ev, mag_F2R_Zdigits).
        pose proof (Zdigits_correct radix2 (Zpos m)) as D. cbn [Z.abs] in D. change (Zpower radix2) with (Z.pow 2) in D.
        assert (0 < Zdigits radix2 (Zpos m)) as Pd by (by apply Zdigits_gt_0).
        set (d := Zdigits radix2 (Zpos m)) in *.
        assert (Zpos m = 2 ^ (d - 1)) as Em.
        { apply eq_IZR. rewrite Emag, Ev' in Eb. replace (d + e - 1) with (d - 1 + e) in Eb by lia. rewrite bpow_plus in Eb.
          apply Rmult_eq_reg_r in Eb; [|lra]. rewrite Eb. by rewrite (IZR_Zpower radix2) by lia. }
        assert (d <> 53). { intros ->. by apply Nm. }
        assert (d - 1 < 53). { apply (Z.pow_lt_mono_r_iff 2); lia. }
        rewrite Emag. unfold SpecFloat.fexp, SpecFloat.emin. assert (e = -1074); [|lia]. apply Hs. rewrite Em. apply Z.pow_lt_mono_r; lia. }
    destruct (closer (Zpos m) e).
    + rewrite minus_IZR, mult_IZR in Hl. assert (v - bpow radix2 e / 4 < r)%R as Hr by lra.
      rewrite Rabs_left1 in Nr by lra. unfold Rabs in Nr. destruct (Rcase_abs (v - r)); lra.
    + rewrite mult_IZR, minus_IZR, mult_IZR in Hl. assert (v - bpow radix2 e / 2 < r)%R as Hr by lra.
      rewrite Rabs_left1 in Nr by lra. unfold Rabs in Nr. destruct (Rcase_abs (v - r)); lra.
  - assert (Ulp.succ radix2 fexp64 v <= x)%R as Lp by (apply succ_le_lt; [typeclasses eauto|assumption..]). rewrite succ_eq_pos, Eu in Lp by lra.
    rewrite mult_IZR, plus_IZR, mult_IZR in Hu. assert (r < v + bpow radix2 e / 2)%R as Hr by lra.
    rewrite Rabs_pos_eq in Nr by lra. unfold Rabs in Nr. destruct (Rcase_abs (v - r)); lra.
Qed.

(** ** The cached power, as a real *)
Lemma power_real f e k : power_ok (f, e, k) = true ->
  2 ^ 63 <= f < 2 ^ 64 /\ -300 <= k <= 324 /\ (Rabs (IZR f - pow10 k * bpow radix2 (- e)) <= / 2)%R.
Proof.
  unfold power_ok. intros H. repeat (apply andb_prop in H as [H ?]).
  repeat match goal with H : (_ <=? _) = true |- _ => apply Z.leb_le in H | H : (_ <? _) = true |- _ => apply Z.ltb_lt in H end.
  change (2 ^ 63) with 9223372036854775808. change (2 ^ 64) with 18446744073709551616. split; [lia|]. split; [lia|].
  assert (forall z, bpow radix2 (- z) = IZR (2 ^ Z.max (- z) 0) / IZR (2 ^ Z.max z 0))%R as E2.
  { intros z. change 2 with (radix_val radix2). rewrite !IZR_Zpower by lia. unfold Rdiv. rewrite <- bpow_opp, <- bpow_plus. f_equal. lia. }
  assert (pow10 k = IZR (10 ^ Z.max k 0) / IZR (10 ^ Z.max (- k) 0))%R as E10.
  { rewrite <- !pow10_nonneg by lia. unfold pow10, Rdiv. rewrite <- bpow_opp, <- bpow_plus. f_equal. lia. }
  rewrite E2, E10. set (a := 2 ^ Z.max e 0) in *. set (b := 10 ^ Z.max (- k) 0) in *. set (c := 10 ^ Z.max k 0) in *. set (d := 2 ^ Z.max (- e) 0) in *.
  assert (0 < a) as Pa by (apply Z.pow_pos_nonneg; lia). assert (0 < b) as Pb by (apply Z.pow_pos_nonneg; lia).
  apply IZR_lt in Pa, Pb.
  match goal with H : 2 * Z.abs _ <= _ |- _ => apply IZR_le in H; rewrite mult_IZR, abs_IZR, minus_IZR, !mult_IZR in H; rename H into HH end.
  replace (IZR f - IZR c / IZR b * (IZR d / IZR a))%R with ((IZR f * IZR a * IZR b - IZR c * IZR d) * / (IZR a * IZR b))%R by (field; lra).
  assert (0 < IZR a * IZR b)%R as Pab by (by apply Rmult_lt_0_compat).
  rewrite Rabs_mult, (Rabs_pos_eq (/ _)) by (left; by apply Rinv_0_lt_compat).
  apply Rmult_le_reg_r with (IZR a * IZR b)%R; [done|]. rewrite Rmult_assoc, Rinv_l by lra. lra.
Qed.

Lemma produced_real P L ne buf n m : 0 <= n -> 0 <= m -> L * 10 ^ m <= decimal buf * 10 ^ n * 2 ^ ne <= P * 10 ^ m -> 0 <= ne ->
  (IZR L * bpow radix2 (- ne) <= IZR (decimal buf) * pow10 (n - m) <= IZR P * bpow radix2 (- ne))%R.
Proof.
  intros Hn Hm [H1 H2] Hne. apply IZR_le in H1, H2. rewrite !mult_IZR in H1, H2.
  assert (pow10 (n - m) = IZR (10 ^ n) * / IZR (10 ^ m))%R as ->.
  { rewrite <- !pow10_nonneg by lia. unfold pow10. by rewrite <- bpow_opp, <- bpow_plus. }
  assert (bpow radix2 (- ne) = / IZR (2 ^ ne))%R as ->.
  { change (2 ^ ne) with (radix_val radix2 ^ ne). rewrite IZR_Zpower by lia. by rewrite <- bpow_opp. }
  assert (0 < IZR (10 ^ m))%R as P1 by (apply IZR_lt, Z.pow_pos_nonneg; lia). assert (0 < IZR (2 ^ ne))%R as P2 by (apply IZR_lt, Z.pow_pos_nonneg; lia).
  assert (0 < IZR (10 ^ m) * IZR (2 ^ ne))%R as P3 by (by apply Rmult_lt_0_compat).
  generalize dependent (IZR (10 ^ m)). generalize dependent (IZR (2 ^ ne)). generalize (IZR (decimal buf)) (IZR (10 ^ n)) (IZR L) (IZR P). clear.
  intros d tn l p o Po t H1 H2 Pt Pto.
  split; apply Rmult_le_reg_r with (t * o)%R; try done.
  - replace (l * / o * (t * o))%R with (l * t)%R by (field; lra). replace (d * (tn * / t) * (t * o))%R with (d * tn * o)%R by (field; lra). done.
  - replace (p * / o * (t * o))%R with (p * t)%R by (field; lra). replace (d * (tn * / t) * (t * o))%R with (d * tn * o)%R by (field; lra). done.
Qed.

(** a product rounded to 64 bits is within 1 of the exact one: at most 1/2 from the cached power and 1/2 from rounding *)
Lemma mul_real f c X h : 0 < f < 2 ^ 64 -> (Rabs (IZR c - X * bpow radix2 64) <= / 2)%R ->
  2 * h * 2 ^ 64 <= 2 * (f * c) + 2 ^ 64 -> 2 * (f * c) < 2 * h * 2 ^ 64 + 2 ^ 64 -> (IZR f * X - 1 < IZR h < IZR f * X + 1)%R.
Proof.
  intros Hf Hc H1 H2. change (bpow radix2 64) with 18446744073709551616%R in Hc. change (2 ^ 64) with 18446744073709551616 in *.
  apply IZR_le in H1. apply IZR_lt in H2. rewrite !plus_IZR, !mult_IZR in H1, H2. destruct Hf as [F1 F2]. apply IZR_lt in F1, F2.
  apply Rabs_le_inv in Hc. destruct Hc as [C1 C2].
  assert (IZR f * IZR c <= IZR f * (X * 18446744073709551616) + IZR f * / 2)%R as A1 by nra.
  assert (IZR f * (X * 18446744073709551616) - IZR f * / 2 <= IZR f * IZR c)%R as A2 by nra.
  generalize dependent (IZR f * IZR c)%R. intros fc H1 H2 A1 A2. split; nra.
Qed.

(** ** Grisu2 *)
Definition written (x : float64) (buf : list Z) (dexp : Z) : Prop :=
  digits buf /\ (exists c l, buf = c :: l /\ c <> 48) /\ (length buf <= 17)%nat /\ -400 <= dexp <= 400 /\
  nearest_double false (IZR (decimal buf) * pow10 dexp) x.

Lemma grisu_bounds mf vf pf c : 2 ^ 63 <= c < 2 ^ 64 -> 2 ^ 63 <= pf < 2 ^ 64 -> 0 <= mf -> vf + 1024 <= pf -> mf + 512 <= vf -> mf + 1536 <= pf -> pf <= (pf - mf) * 2 ^ 53 ->
  let W := (vf * c + 2 ^ 63) / 2 ^ 64 in let h1 := (mf * c + 2 ^ 63) / 2 ^ 64 in let h2 := (pf * c + 2 ^ 63) / 2 ^ 64 in
  let L := h1 + 1 in let P := h2 - 1 in
  0 < L /\ L < W /\ W < P /\ P < 18446744073709551616 /\ 1152921504606846976 <= P /\ P <= 10 ^ 16 * (P - L).
Proof.
  intros Hc Hp Hm Hv Hmv Hmp Hr W h1 h2 L P.
  pose proof (mul_bounds vf c ltac:(lia) ltac:(lia)) as B1. pose proof (mul_bounds mf c ltac:(lia) ltac:(lia)) as B2. pose proof (mul_bounds pf c ltac:(lia) ltac:(lia)) as B3.
  cbv zeta in B1, B2, B3. fold W in B1. fold h1 in B2. fold h2 in B3. subst L P. clearbody W h1 h2.
  change (2 ^ 63) with 9223372036854775808 in *. change (2 ^ 64) with 18446744073709551616 in *. change (2 ^ 53) with 9007199254740992 in *. change (10 ^ 16) with 10000000000000000.
  assert ((pf - vf) * c >= 1024 * 9223372036854775808) as D1 by nia. assert ((vf - mf) * c >= 512 * 9223372036854775808) as D2 by nia.
  assert ((pf - mf) * c >= 1536 * 9223372036854775808) as D3 by nia. assert (pf * c >= 9223372036854775808 * 9223372036854775808) as D4 by nia.
  assert (0 <= mf * c) as D5 by nia. assert (pf * c <= ((pf - mf) * c) * 9007199254740992) as D6 by nia.
  assert (pf * c <= 18446744073709551615 * 18446744073709551615) as D7 by nia.
  replace ((pf - vf) * c) with (pf * c - vf * c) in * by ring. replace ((vf - mf) * c) with (vf * c - mf * c) in * by ring.
  replace ((pf - mf) * c) with (pf * c - mf * c) in * by ring.
  generalize dependent (pf * c). generalize dependent (vf * c). generalize dependent (mf * c). intros. lia.
Qed.

Theorem grisu2_spec m e : SpecFloat.valid_binary 53 1024 (S754_finite false m e) = true ->
  exists buf dexp, grisu2 (S754_finite false m e) = Ret (buf, dexp) /\ written (S754_finite false m e) buf dexp.
Proof.
  intros V. pose proof (valid_shape m e V) as (Hm & He & Hsub). unfold grisu2.
  destruct (boundaries_spec (Zpos m) e Hm He Hsub) as (s & -> & Hs & Hw & Hp). cbn [obind]. unfold grisu2_of. cbn [de].
  rewrite Z.eqb_refl. cbn [jassert obind].
  pose proof (cached_spec (e - s) ltac:(lia)) as C. unfold cached_ok in C. destruct (get_cached_power (e - s)) as [[[cf ce] ck]| | |]; try done. cbn [obind].
  apply andb_prop in C as [C C3%Z.leb_le]. apply andb_prop in C as [C C2%Z.leb_le]. apply power_real in C as (Hcf & Hck & Hc).
  set (mf := if closer (Zpos m) e then (4 * Zpos m - 1) * 2 ^ (s - 2) else (2 * Zpos m - 1) * 2 ^ (s - 1)).
  set (vf := Zpos m * 2 ^ s) in *. set (pf := (2 * Zpos m + 1) * 2 ^ (s - 1)) in *.
  assert (2 ^ s = 4 * 2 ^ (s - 2)) as Q2. { replace s with (s - 2 + 2) at 1 by lia. rewrite Z.pow_add_r by lia. change (2 ^ 2) with 4. lia. }
  assert (2 ^ (s - 1) = 2 * 2 ^ (s - 2)) as Q1. { replace (s - 1) with (s - 2 + 1) by lia. rewrite Z.pow_add_r by lia. change (2 ^ 1) with 2. lia. }
  assert (2 ^ 9 <= 2 ^ (s - 2)) as Q0 by (apply Z.pow_le_mono_r; lia). change (2 ^ 9) with 512 in Q0.
  set (q := 2 ^ (s - 2)) in *.
  assert (pf = (4 * Zpos m + 2) * q) as Epf by (unfold pf; rewrite Q1; ring). assert (vf = 4 * Zpos m * q) as Evf by (unfold vf; rewrite Q2; ring).
  assert (mf = (if closer (Zpos m) e then 4 * Zpos m - 1 else 4 * Zpos m - 2) * q) as Emf.
  { unfold mf. destruct (closer (Zpos m) e); [done|]. rewrite Q1. ring. }
  assert (exists a, mf = a * q /\ 0 <= a /\ 4 * Zpos m - 2 <= a <= 4 * Zpos m - 1 /\ 4 * Zpos m + 2 <= (4 * Zpos m + 2 - a) * 2 ^ 53) as (a & Ea & Ha0 & Ha & Har).
  { rewrite Emf. change (2 ^ 53) with 9007199254740992 in *. unfold closer. destruct (Z.eqb_spec (Zpos m) 4503599627370496) as [Em|].
    - destruct (-1074 <? e); cbn [andb]; eexists; (split; [reflexivity|]); lia.
    - cbn [andb]. eexists; split; [reflexivity|]. lia. }
  assert (0 <= mf) as Hmf by (rewrite Ea; nia).
  assert (vf + 1024 <= pf) as G1 by (rewrite Epf, Evf; nia). assert (mf + 512 <= vf) as G2 by (rewrite Ea, Evf; nia). assert (mf + 1536 <= pf) as G3 by (rewrite Ea, Epf; nia).
  assert (pf <= (pf - mf) * 2 ^ 53) as G4.
  { rewrite Ea, Epf. replace (((4 * Z.pos m + 2) * q - a * q) * 2 ^ 53) with ((4 * Z.pos m + 2 - a) * 2 ^ 53 * q) by ring. apply Z.mul_le_mono_nonneg_r; lia. }
  assert (2 ^ 63 <= pf < 2 ^ 64) as G5 by lia.
  rewrite !diy_mul_spec by (cbn [df]; lia). cbn [df de].
  pose proof (grisu_bounds mf vf pf cf Hcf G5 Hmf G1 G2 G3 G4) as B. cbv zeta in B.
  pose proof (mul_bounds mf cf Hmf ltac:(lia)) as BM. pose proof (mul_bounds pf cf ltac:(lia) ltac:(lia)) as BP. cbv zeta in BM, BP.
  set (W := (vf * cf + 2 ^ 63) / 2 ^ 64) in *. set (h1 := (mf * cf + 2 ^ 63) / 2 ^ 64) in *. set (h2 := (pf * cf + 2 ^ 63) / 2 ^ 64) in *. clearbody W h1 h2.
  destruct B as (B1 & B2 & B3 & B4 & B5 & B6).
  rewrite (u64_id (h1 + 1)), (u64_id (h2 - 1)) by lia.
  set (ne := - (e - s + ce + 64)). assert (32 <= ne <= 60) as Hne by lia.
  assert (2 ^ ne <= 1152921504606846976) as Hone. { change 1152921504606846976 with (2 ^ 60). apply Z.pow_le_mono_r; lia. }
  destruct (digit_gen_spec (h2 - 1) (h1 + 1) W ne B1 ltac:(lia) ltac:(lia) B4 Hne (- ck) (e - s + ce + 64) ltac:(lia) ltac:(lia) B2 B3 B6)
    as (buf & n & k & E & (Hg & Hnb & Hn & Hk & _ & Hb) & Hk19 & Hl).
  rewrite E. eexists _, _. split; [done|].
  pose proof (produced_real _ _ _ _ _ _ (proj1 Hn) Hk Hb ltac:(lia)) as [R1 R2].
  destruct Hg as [Hd Hh].
  split; [done|]. split; [destruct buf as [|c l]; [done|]; exists c, l; split; [done|lia]|]. split; [done|]. split; [lia|].
  (* reals *)
  set (X := (pow10 ck * bpow radix2 (- ce - 64))%R).
  assert (pow10 ck * bpow radix2 (- ce) = X * bpow radix2 64)%R as EX.
  { unfold X. rewrite Rmult_assoc, <- bpow_plus. do 2 f_equal. lia. }
  rewrite EX in Hc.
  assert (IZR (h2 - 1) < IZR pf * X)%R as U1. { destruct (mul_real pf cf X h2) as [_ H]; try done; [lia|tauto..|]. rewrite minus_IZR. lra. }
  assert (IZR mf * X < IZR (h1 + 1))%R as U2.
  { rewrite plus_IZR. destruct (Z.eq_dec mf 0) as [->|Nz].
    - assert (0 <= h1) by lia. apply IZR_le in H. lra.
    - destruct (mul_real mf cf X h1) as [H _]; try done; [lia|tauto..|]. lra. }
  (* scale back by 10^-ck *)
  assert (IZR (decimal buf) * pow10 (- ck + n - k) = IZR (decimal buf) * pow10 (n - k) * pow10 (- ck))%R as ER.
  { unfold pow10. rewrite Rmult_assoc, <- bpow_plus. do 2 f_equal. lia. }
  assert (X * bpow radix2 (- ne) * pow10 (- ck) = bpow radix2 (e - s))%R as EB.
  { unfold X. replace (bpow radix2 (e - s)) with (bpow radix2 (- ce - 64) * bpow radix2 (- ne))%R by (rewrite <- bpow_plus; f_equal; lia).
    assert (pow10 ck * pow10 (- ck) = 1)%R as E1. { unfold pow10. rewrite <- bpow_plus. by replace (ck + - ck) with 0 by lia. }
    rewrite <- (Rmult_1_l (bpow radix2 (- ce - 64) * _)), <- E1. ring. }
  pose proof (bpow_gt_0 radix2 (- ne)) as Pne. pose proof (pow10_pos (- ck)) as Pck.
  assert (IZR mf * bpow radix2 (e - s) < IZR (decimal buf) * pow10 (- ck + n - k) < IZR pf * bpow radix2 (e - s))%R as [F1 F2].
  { rewrite ER, <- EB. split.
    - apply Rlt_le_trans with (IZR (h1 + 1) * bpow radix2 (- ne) * pow10 (- ck))%R.
      + replace (IZR mf * (X * bpow radix2 (- ne) * pow10 (- ck)))%R with (IZR mf * X * (bpow radix2 (- ne) * pow10 (- ck)))%R by ring.
        rewrite (Rmult_assoc (IZR (h1 + 1))). apply Rmult_lt_compat_r; [by apply Rmult_lt_0_compat|done].
      + apply Rmult_le_compat_r; [lra|done].
    - apply Rle_lt_trans with (IZR (h2 - 1) * bpow radix2 (- ne) * pow10 (- ck))%R.
      + apply Rmult_le_compat_r; [lra|done].
      + replace (IZR pf * (X * bpow radix2 (- ne) * pow10 (- ck)))%R with (IZR pf * X * (bpow radix2 (- ne) * pow10 (- ck)))%R by ring.
        rewrite (Rmult_assoc (IZR (h2 - 1))). apply Rmult_lt_compat_r; [by apply Rmult_lt_0_compat|done]. }
  assert (forall z, IZR (z * q) * bpow radix2 (e - s) = F2R (Float radix2 z (e - 2)))%R as FF.
  { intros z. rewrite mult_IZR. unfold F2R. cbn [Fnum Fexp]. rewrite Rmult_assoc. f_equal. unfold q. change (2 ^ (s - 2)) with (radix_val radix2 ^ (s - 2)). rewrite IZR_Zpower by lia.
    rewrite <- bpow_plus. f_equal. lia. }
  split; [done|]. split; [done|]. split; [|done].
  symmetry. apply round_between; [done|]. split.
  - eapply Rle_lt_trans; [|exact F1]. rewrite Emf, FF. apply F2R_le. destruct (closer (Zpos m) e); lia.
  - eapply Rlt_le_trans; [exact F2|]. rewrite Epf, FF. apply F2R_le. lia.
Qed.
