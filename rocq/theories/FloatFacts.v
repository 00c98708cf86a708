(** * Facts about the floating point computations of the library: specificity, coin tosser, feedback thresholds, generator output,
      evaluation, loss functions, number of regressor feedbacks. *)
From stdpp Require Import tactics.
From Verif Require Import Base Floats Rng Env CoinTosser.
From Coq Require Import ZArith Reals Psatz.
From Flocq Require Import Core.Core.
From Flocq Require Import Relative BinarySingleNaN.
From Verif Require Export FloatBase.
Local Open Scope Z_scope.

Lemma p32 : Prec_gt_0 24. Proof. done. Qed.
Lemma m32 : Prec_lt_emax 24 128. Proof. done. Qed.
Lemma p64 : Prec_gt_0 53. Proof. done. Qed.
Lemma m64 : Prec_lt_emax 53 1024. Proof. done. Qed.
Notation fin32 := (fin 24 128).
Notation fin64 := (fin 53 1024).
Notation fmt32 := (fmt 24 128).
Notation fmt64 := (fmt 53 1024).
Notation r32 := (rne 24 128).
Notation r64 := (rne 53 1024).

Lemma rng32 r : (Rabs r <= 8589934592)%R -> in_range 24 128 r.
Proof. intros H. apply (in_range_bpow 24 128 p32 r 33); [lia|]. exact H. Qed.
Lemma rng64 r : (Rabs r <= 8589934592)%R -> in_range 53 1024 r.
Proof. intros H. apply (in_range_bpow 53 1024 p64 r 33); [lia|]. exact H. Qed.
Lemma mul32 x y : fin32 x -> fin32 y -> (Rabs (val x * val y) <= 8589934592)%R -> fin32 (f32_mul x y) /\ val (f32_mul x y) = r32 (val x * val y).
Proof. intros Hx Hy H. apply (mul_spec 24 128 p32 m32 x y Hx Hy). by apply rng32. Qed.
Lemma add32 x y : fin32 x -> fin32 y -> (Rabs (val x + val y) <= 8589934592)%R -> fin32 (f32_add x y) /\ val (f32_add x y) = r32 (val x + val y).
Proof. intros Hx Hy H. apply (add_spec 24 128 p32 m32 x y Hx Hy). by apply rng32. Qed.
Lemma sub32 x y : fin32 x -> fin32 y -> (Rabs (val x - val y) <= 8589934592)%R -> fin32 (f32_sub x y) /\ val (f32_sub x y) = r32 (val x - val y).
Proof. intros Hx Hy H. apply (sub_spec 24 128 p32 m32 x y Hx Hy). by apply rng32. Qed.
Lemma div32 x y : fin32 x -> fin32 y -> val y <> 0%R -> (Rabs (val x / val y) <= 8589934592)%R -> fin32 (f32_div x y) /\ val (f32_div x y) = r32 (val x / val y).
Proof. intros Hx Hy Hn H. apply (div_spec 24 128 p32 m32 x y Hx Hy Hn). by apply rng32. Qed.
Lemma mul64 x y : fin64 x -> fin64 y -> (Rabs (val x * val y) <= 8589934592)%R -> fin64 (f64_mul x y) /\ val (f64_mul x y) = r64 (val x * val y).
Proof. intros Hx Hy H. apply (mul_spec 53 1024 p64 m64 x y Hx Hy). by apply rng64. Qed.
Lemma of_Z32 z : Z.abs z <= 2 ^ 32 -> fin32 (f32_of_Z z) /\ val (f32_of_Z z) = r32 (IZR z).
Proof. intros H. by apply (normalize_any 24 128 p32 m32 z false 32). Qed.
Lemma of_Z32_small z : Z.abs z <= 2 ^ 24 -> fin32 (f32_of_Z z) /\ val (f32_of_Z z) = IZR z.
Proof. intros H. by apply (normalize_int 24 128 p32 m32 z false). Qed.
Lemma of_Z64 z : Z.abs z <= 2 ^ 53 -> fin64 (f64_of_Z z) /\ val (f64_of_Z z) = IZR z.
Proof. intros H. by apply (normalize_int 53 1024 p64 m64 z false). Qed.
Lemma fmt32_int z : Z.abs z <= 2 ^ 24 -> fmt32 (IZR z).
Proof. apply (fmt_int 24 128 p32 m32). Qed.
Lemma fmt64_int z : Z.abs z <= 2 ^ 53 -> fmt64 (IZR z).
Proof. apply (fmt_int 53 1024 p64 m64). Qed.
Lemma one32 : fin32 f32_one /\ val f32_one = 1%R.
Proof. apply (of_Z32_small 1). lia. Qed.
Lemma fmt32_pow k : -149 <= k -> fmt32 (bpow radix2 k).
Proof. intros H. apply (fmt_bpow 24 128 p32). lia. Qed.
(** rounding keeps bounds that are representable *)
Lemma r32_le r b : fmt32 b -> (r <= b)%R -> (r32 r <= b)%R.
Proof. apply rne_le, p32. Qed.
Lemma r32_ge r b : fmt32 b -> (b <= r)%R -> (b <= r32 r)%R.
Proof. apply rne_ge, p32. Qed.
Lemma r32_01 r : (0 <= r <= 1)%R -> (0 <= r32 r <= 1)%R.
Proof. intros [H0 H1]. split; [apply r32_ge; [apply fmt_0|done]|apply r32_le; [apply (fmt32_int 1); lia|done]]. Qed.
(** integers up to 2^32 round to within [0, 2^32] *)
Lemma r32_nat z : 0 <= z <= 2 ^ 32 -> (0 <= r32 (IZR z) <= 4294967296)%R.
Proof.
  intros [H0 H1]. split.
  - apply r32_ge; [apply fmt_0|by apply IZR_le].
  - apply r32_le; [apply (fmt32_pow 32); lia|]. apply IZR_le. exact H1.
Qed.
Lemma r32_pos z : 1 <= z -> (1 <= r32 (IZR z))%R.
Proof. intros H. apply r32_ge; [apply (fmt32_int 1); lia|by apply IZR_le]. Qed.

Lemma floor32 x : fin32 x -> fin32 (f32_floor x) /\ val (f32_floor x) = IZR (Zfloor (val x)).
Proof. exact (floor_spec 24 128 p32 m32 x). Qed.
Lemma round32 x : fin32 x -> (0 <= val x)%R -> fin32 (f32_round x) /\ val (f32_round x) = IZR (Zfloor (val x + / 2)).
Proof. exact (round_spec 24 128 p32 m32 x). Qed.
Lemma round64 x : fin64 x -> (0 <= val x)%R -> fin64 (f64_round x) /\ val (f64_round x) = IZR (Zfloor (val x + / 2)).
Proof. exact (round_spec 53 1024 p64 m64 x). Qed.
(** ** float to double is exact *)
Lemma fmt_32_64 r : fmt32 r -> fmt64 r.
Proof.
  apply generic_inclusion_mag. intros _. unfold SpecFloat.fexp, SpecFloat.emin. lia.
Qed.
Lemma f64_of_f32_spec x : fin32 x -> fin64 (f64_of_f32 x) /\ val (f64_of_f32 x) = val x.
Proof.
  intros Hx. destruct x as [s|s| |s m e]; try (destruct Hx as [_ Hx]; done).
  unfold f64_of_f32. assert (F2R (Float radix2 (Floats.cond_neg s (Zpos m)) e) = val (S754_finite s m e)) as E.
  { unfold val. cbn. by destruct s. }
  pose proof (fmt_32_64 _ (fin_fmt _ _ _ Hx)) as Hf. pose proof (fin_range _ _ _ Hx) as Hr.
  destruct (normalize_spec 53 1024 p64 m64 (Floats.cond_neg s (Zpos m)) e s) as [H1 H2].
  - rewrite E. unfold in_range. rewrite (rne_id 53 1024 _ Hf). eapply Rlt_le_trans; [exact Hr|]. apply bpow_le. lia.
  - split; [exact H1|]. rewrite H2, E. by apply rne_id.
Qed.

(** ** Specificity *)
Lemma s_check_iff s : SpecFloat.valid_binary 24 128 s = true ->
  (is_finite_sf s && negb (f_lt (f64_of_f32 s) (f64_of_Z 1)) = true) <-> (is_finite_sf s = true /\ (1 <= val s)%R).
Proof.
  intros Hv. rewrite andb_true_iff, negb_true_iff. split; intros [Hf H]; (split; [done|]).
  - destruct (f64_of_f32_spec s (conj Hv Hf)) as [F1 V1]. destruct (of_Z64 1) as [F2 V2]; [lia|].
    destruct (Rle_lt_dec 1 (val s)) as [|Hlt]; [done|]. exfalso. rewrite <- V1, <- V2 in Hlt. apply (ltb_spec 53 1024 _ _ F1 F2) in Hlt.
    unfold f_lt in H. congruence.
  - destruct (f64_of_f32_spec s (conj Hv Hf)) as [F1 V1]. destruct (of_Z64 1) as [F2 V2]; [lia|]. apply not_true_is_false. intros Hlt.
    apply (ltb_spec 53 1024 _ _ F1 F2) in Hlt. lra.
Qed.
Lemma sinv_spec s : fin32 s -> (1 <= val s)%R -> fin32 (f32_div f32_one s) /\ val (f32_div f32_one s) = r32 (1 / val s) /\ (0 <= val (f32_div f32_one s) <= 1)%R.
Proof.
  intros Hs H1. destruct one32 as [F1 V1]. assert (0 < 1 / val s <= 1)%R as Hb.
  { split; [apply Rdiv_lt_0_compat; lra|]. apply Rmult_le_reg_r with (val s); [lra|]. unfold Rdiv. rewrite Rmult_assoc, Rinv_l; lra. }
  destruct (div32 f32_one s F1 Hs) as [F V]; [lra| |].
  - rewrite V1, Rabs_pos_eq by lra. lra.
  - rewrite V1 in V. split; [done|]. split; [done|]. rewrite V. apply r32_01. lra.
Qed.

(** ** Coin tosser: mean number of hits as computed, and the admissible numbers of hits *)
Definition toss_mean (s : float32) (nf : Z) : R := r32 (r32 (IZR nf) * r32 (1 / val s)).
Lemma toss_mean_bounds s nf : fin32 s -> (1 <= val s)%R -> 0 <= nf <= int_max -> (0 <= toss_mean s nf <= r32 (IZR nf))%R /\ (r32 (IZR nf) <= 2147483648)%R.
Proof.
  intros Hs H1 Hn. unfold toss_mean. destruct (sinv_spec s Hs H1) as (_ & V & Hb). rewrite V in Hb.
  assert (fmt32 (r32 (IZR nf))) as Hf by (apply generic_format_round; [apply fexp_correct, p32|apply valid_rnd_N]).
  assert (0 <= r32 (IZR nf) <= 2147483648)%R as Hr.
  { split; [apply r32_ge; [apply fmt_0|apply IZR_le; lia]|]. apply r32_le; [apply (fmt32_pow 31); lia|]. apply IZR_le. unfold int_max in Hn. lia. }
  split; [|lra]. split.
  - apply r32_ge; [apply fmt_0|]. apply Rmult_le_pos; lra.
  - apply r32_le; [done|]. rewrite <- (Rmult_1_r (r32 (IZR nf))) at 2. apply Rmult_le_compat_l; lra.
Qed.
Lemma ct_make_spec s nf : fin32 s -> (1 <= val s)%R -> 0 <= nf <= int_max ->
  exists thr, ct_make (f32_div f32_one s) nf =
      Ret (CT (f32_div f32_one s) (Zfloor (toss_mean s nf)) thr (replicate (Z.to_nat nf) 0) (replicate (Z.to_nat nf) 0)) /\
    0 <= thr < 4294967296 /\ (0 < thr -> toss_mean s nf <> IZR (Zfloor (toss_mean s nf))).
Proof.
  intros Hs H1 Hn. destruct (toss_mean_bounds s nf Hs H1 Hn) as [Hq Hq2]. destruct (sinv_spec s Hs H1) as (Fi & Vi & Hi).
  unfold int_max in Hn. destruct (of_Z32 nf) as [Fn Vn]; [lia|].
  assert (0 <= val (f32_of_Z nf) * val (f32_div f32_one s) <= 2147483648)%R as Hp.
  { rewrite Vn. split; [apply Rmult_le_pos; lra|]. rewrite <- (Rmult_1_r 2147483648). apply Rmult_le_compat; lra. }
  destruct (mul32 _ _ Fn Fi) as [Fx Vx]; [rewrite Rabs_pos_eq; lra|]. rewrite Vn, Vi in Vx. fold (toss_mean s nf) in Vx.
  unfold ct_make. set (x := f32_mul (f32_of_Z nf) (f32_div f32_one s)) in *. clearbody x.
  destruct (floor32 x Fx) as [Ff Vf]. rewrite Vx in Vf.
  set (q := toss_mean s nf) in *. clearbody q. pose proof (Zfloor_lb q) as L1. pose proof (Zfloor_ub q) as L2.
  assert (0 <= IZR (Zfloor q))%R as Hf0 by (apply IZR_le; apply Zfloor_lub; lra).
  assert (0 <= val (f32_floor x) < 4294967296)%R as Hr by (rewrite Vf; split; lra).
  rewrite (to_u32_spec 24 128 _ Ff Hr). cbn [obind]. rewrite Vf, Zfloor_IZR.
  destruct (sub32 x (f32_floor x) Fx Ff) as [Fd Vd].
  { rewrite Vx, Vf. rewrite Rabs_pos_eq; lra. }
  rewrite Vx, Vf in Vd. assert (0 <= val (f32_sub x (f32_floor x)) <= 1)%R as Hd by (rewrite Vd; apply r32_01; lra).
  destruct (f64_of_f32_spec _ Fd) as [F6 V6]. destruct (of_Z64 4294967295) as [Fc Vc]; [lia|].
  assert (0 <= val (f32_sub x (f32_floor x)) * 4294967295 <= 4294967295)%R as Hp2 by lra.
  destruct (mul64 _ _ F6 Fc) as [Fm Vm]; [rewrite V6, Vc, Rabs_pos_eq; lra|]. rewrite V6, Vc in Vm.
  assert (0 <= val (f64_mul (f64_of_f32 (f32_sub x (f32_floor x))) (f64_of_Z 4294967295)) <= 4294967295)%R as Hm.
  { rewrite Vm. split; [apply rne_ge; [apply p64|apply fmt_0|lra]|]. apply rne_le; [apply p64|apply (fmt64_int 4294967295); lia|lra]. }
  destruct (round64 _ Fm (proj1 Hm)) as [Fr Vr].
  set (y := f64_mul _ _) in *. assert (0 <= Zfloor (val y + / 2) < 4294967296) as Hz.
  { split; [apply Zfloor_lub; lra|]. apply lt_IZR. eapply Rle_lt_trans; [apply Zfloor_lb|]. lra. }
  rewrite (to_u32_spec 53 1024 _ Fr) by (rewrite Vr; split; [apply IZR_le|apply IZR_lt]; lia). cbn [obind]. rewrite Vr, Zfloor_IZR.
  eexists. split; [reflexivity|]. split; [done|]. intros Hpos E. rewrite <- E in Vd. replace (q - q)%R with 0%R in Vd by ring.
  rewrite rne_0 in Vd. rewrite Vd, Rmult_0_l, rne_0 in Vm. rewrite Vm in Hpos.
  assert (Zfloor (0 + / 2) = 0) as E0 by (apply Zfloor_imp; rewrite plus_IZR; lra). lia.
Qed.

(** ** Error bounds *)
(** rounding error: relative 2^-24, or absolute 2^-150 (underflow) *)
Lemma r32_err r : exists eps eta, (Rabs eps <= / 16777216)%R /\ (Rabs eta <= bpow radix2 (-150))%R /\ r32 r = (r * (1 + eps) + eta)%R.
Proof.
  destruct (error_N_FLT radix2 (3 - 128 - 24) 24 ltac:(lia) (fun z => negb (Z.even z)) r) as (eps & eta & H1 & H2 & _ & H3).
  exists eps, eta. split; [|split; [|exact H3]].
  - eapply Rle_trans; [exact H1|]. simpl. lra.
  - eapply Rle_trans; [exact H2|]. change (3 - 128 - 24) with (1 + -150). rewrite bpow_plus. simpl (bpow radix2 1). lra.
Qed.
Lemma r32_rel r : (bpow radix2 (-100) <= Rabs r)%R -> exists eps, (Rabs eps <= / 16777216)%R /\ r32 r = (r * (1 + eps))%R.
Proof.
  intros H. destruct (rne_rel 24 128 p32 r) as (eps & H1 & H2).
  - eapply Rle_trans; [|exact H]. apply bpow_le. lia.
  - exists eps. split; [|exact H2]. eapply Rle_trans; [exact H1|]. simpl. lra.
Qed.
Lemma mul_bd x y X Y : (Rabs x <= X)%R -> (Rabs y <= Y)%R -> (- (X * Y) <= x * y <= X * Y)%R.
Proof.
  intros Hx Hy. apply Rabs_le_inv. rewrite Rabs_mult. apply Rmult_le_compat; auto using Rabs_pos.
Qed.
Lemma bpow_m100 : (bpow radix2 (-100) <= / 1000000000)%R.
Proof. apply Rle_trans with (bpow radix2 (-30)); [apply bpow_le; lia|]. simpl. lra. Qed.
Lemma bpow_m150 : (bpow radix2 (-150) = bpow radix2 (-100) * bpow radix2 (-50))%R.
Proof. by rewrite <- bpow_plus. Qed.
Lemma bpow_m50 : (bpow radix2 (-50) <= / 1000000000000000)%R.
Proof. simpl. lra. Qed.

(** the computed mean approximates features / s *)
Lemma toss_mean_close s nf : fin32 s -> (1 <= val s)%R -> 0 <= nf <= 16777216 ->
  (Rabs (toss_mean s nf - IZR nf / val s) <= IZR nf / val s / 4194304 + bpow radix2 (-100))%R.
Proof.
  intros Hs H1 Hn. unfold toss_mean. rewrite (rne_id 24 128 (IZR nf)) by (apply fmt32_int; lia).
  destruct (r32_err (1 / val s)) as (e1 & t1 & He1 & Ht1 & ->). destruct (r32_err (IZR nf * (1 / val s * (1 + e1) + t1))) as (e2 & t2 & He2 & Ht2 & ->).
  set (n := IZR nf). assert (0 <= n <= 16777216)%R as Hn' by (split; apply IZR_le; lia).
  set (a := (n / val s)%R). assert (0 <= a)%R as Ha by (apply Rmult_le_pos; [lra|left; apply Rinv_0_lt_compat; lra]).
  replace (n * (1 / val s * (1 + e1) + t1) * (1 + e2) + t2 - a)%R with (a * (e1 + e2 + e1 * e2) + n * t1 + n * t1 * e2 + t2)%R by (unfold a, Rdiv; ring).
  set (u := bpow radix2 (-100)) in *. pose proof (bpow_m150) as E150. fold u in E150. rewrite E150 in *.
  pose proof bpow_m50 as B50. set (v := bpow radix2 (-50)) in *.
  assert (0 < u)%R as Hu by apply bpow_gt_0. assert (0 < v)%R as Hv by apply bpow_gt_0.
  assert (Rabs n <= 16777216)%R as Hna by (rewrite Rabs_pos_eq; lra).
  pose proof (mul_bd e1 e2 _ _ He1 He2) as M12.
  assert (Rabs (e1 + e2 + e1 * e2) <= / 4194304)%R as M3. { apply Rabs_le. apply Rabs_le_inv in He1, He2. lra. }
  assert (Rabs a <= a)%R as Haa by (rewrite Rabs_pos_eq; lra).
  pose proof (mul_bd _ _ _ _ Haa M3) as M4. pose proof (mul_bd _ _ _ _ Hna Ht1) as M5. apply Rabs_le in M5. pose proof (mul_bd _ _ _ _ M5 He2) as M6.
  apply Rabs_le_inv in M5, Ht2. assert (16777216 * (u * v) <= u / 4)%R.
  { replace (16777216 * (u * v))%R with (u * (16777216 * v))%R by ring. unfold Rdiv. apply Rmult_le_compat_l; lra. }
  assert (0 < u * v)%R by (apply Rmult_lt_0_compat; lra).
  apply Rabs_le. lra.
Qed.
(** the possible numbers of hits *)
Lemma ct_hits_spec s (nf : nat) ct h : fin32 s -> (1 <= val s)%R -> Z.of_nat nf <= 16777216 ->
  ct_make (f32_div f32_one s) (Z.of_nat nf) = Ret ct -> h = u32 (ct_floor ct) \/ h = u32 (ct_floor ct + 1) /\ 0 < ct_thr ct ->
  (h = Zfloor (toss_mean s (Z.of_nat nf)) \/ h = Zceil (toss_mean s (Z.of_nat nf))) /\ 0 <= h <= Z.of_nat nf.
Proof.
  intros Hs H1 Hn Ec Hh. destruct (ct_make_spec s (Z.of_nat nf) Hs H1) as (thr & Em & Ht & Hz); [unfold int_max; lia|].
  rewrite Em in Ec. injection Ec as <-. cbn [ct_floor ct_thr] in Hh.
  destruct (toss_mean_bounds s (Z.of_nat nf) Hs H1) as [Hq _]; [unfold int_max; lia|].
  rewrite (rne_id 24 128 (IZR (Z.of_nat nf))) in Hq by (apply fmt32_int; lia). set (q := toss_mean s (Z.of_nat nf)) in *.
  assert (0 <= Zfloor q <= Z.of_nat nf) as Hf.
  { split; [apply Zfloor_lub; lra|]. apply le_IZR. eapply Rle_trans; [apply Zfloor_lb|lra]. }
  assert (forall k, 0 <= k <= Z.of_nat nf -> u32 k = k) as Hu by (intros k Hk; unfold u32; apply Z.mod_small; lia).
  destruct Hh as [->|[-> Hpos]].
  - rewrite Hu by lia. split; [by left|lia].
  - specialize (Hz Hpos). assert (Zceil q = Zfloor q + 1) as Ec by (apply Zceil_floor_neq; congruence).
    assert (Zfloor q + 1 <= Z.of_nat nf) as Hle. { rewrite <- Ec. apply Zceil_glb. lra. }
    rewrite Hu by lia. split; [by right|lia].
Qed.

(** ** Selection thresholds of classifier feedback *)
Lemma SFmul_zero p e x s : is_finite_sf x = true -> exists s', SFmul p e x (S754_zero s) = S754_zero s'.
Proof. destruct x; try done; intros _; cbn; eauto. Qed.
Lemma zero_lt_gt d s : f_lt (S754_zero false) d = true -> f_gt d (S754_zero s) = true.
Proof. destruct d as [[]|[]| |[] m e]; cbn; done. Qed.
Lemma eps_inv e : (Rabs e <= / 16777216)%R -> exists e', (Rabs e' <= / 8388608)%R /\ (/ (1 + e) = 1 + e')%R.
Proof.
  intros H. apply Rabs_le_inv in H. exists (/ (1 + e) - 1)%R. split; [|ring].
  assert (0 < 1 + e)%R by lra. replace (/ (1 + e) - 1)%R with ((- e) * / (1 + e))%R by (field; lra).
  assert (Rabs (/ (1 + e)) <= 2)%R as H2.
  { rewrite Rabs_pos_eq by (left; by apply Rinv_0_lt_compat). rewrite <- (Rinv_inv 2). apply Rinv_le; lra. }
  assert (Rabs (- e) <= / 16777216)%R as H3 by (apply Rabs_le; lra).
  pose proof (mul_bd _ _ _ _ H3 H2). apply Rabs_le. lra.
Qed.
Lemma eps_mul a b A B : (Rabs a <= A)%R -> (Rabs b <= B)%R -> (A <= / 100)%R -> (B <= / 100)%R -> exists c, ((1 + a) * (1 + b) = 1 + c)%R /\ (Rabs c <= A + B + A / 100)%R.
Proof.
  intros Ha Hb HA HB. exists (a + b + a * b)%R. split; [ring|]. pose proof (mul_bd _ _ _ _ Ha Hb) as M.
  assert (A * B <= A / 100)%R. { unfold Rdiv. apply Rmult_le_compat_l; [|done]. eapply Rle_trans; [apply Rabs_pos|exact Ha]. }
  apply Rabs_le_inv in Ha, Hb. apply Rabs_le. lra.
Qed.
(** r32 of positive integers in the int range *)
Lemma r32_nat_rel z : 1 <= z <= 4294967296 -> exists e, (Rabs e <= / 16777216)%R /\ r32 (IZR z) = (IZR z * (1 + e))%R.
Proof.
  intros H. apply r32_rel. rewrite Rabs_pos_eq by (apply IZR_le; lia). eapply Rle_trans; [apply bpow_m100|].
  assert (1 <= IZR z)%R by (apply IZR_le; lia). lra.
Qed.
Lemma bpow_m100' : (bpow radix2 (-100) <= / 1000000000000000)%R.
Proof. apply Rle_trans with (bpow radix2 (-50)); [apply bpow_le; lia|]. simpl. lra. Qed.
Lemma inv_ge_m100 x : (1 <= x <= 8589934592)%R -> (/ 8589934592 <= 1 / x <= 1)%R.
Proof.
  intros H. unfold Rdiv. rewrite Rmult_1_l. split; [apply Rinv_le; lra|]. rewrite <- Rinv_1. apply Rinv_le; lra.
Qed.
(** [threshold_spec]: product of the reciprocal of [d] and of [k], as floats, for 0 <= k <= d *)
Lemma ratio_spec d k : 1 <= d <= int_max -> 0 <= k <= d ->
  let x := f32_mul (f32_div f32_one (f32_of_Z d)) (f32_of_Z k) in
  fin32 x /\ (Rabs (val x - IZR k / IZR d) <= IZR k / IZR d / 1048576)%R /\ (k = 0 -> exists s, x = S754_zero s).
Proof.
  intros Hd Hk x. unfold int_max in Hd. assert (k <= 2147483647) by lia.
  destruct (of_Z32 d) as [Fd Vd]; [lia|]. destruct (of_Z32 k) as [Fk Vk]; [lia|]. destruct one32 as [F1 V1].
  destruct (r32_nat_rel d) as (e1 & He1 & E1); [lia|]. assert (1 <= IZR d <= 2147483648)%R as Hdr by (split; apply IZR_le; lia).
  assert (1 <= r32 (IZR d) <= 2147483648)%R as Hdb.
  { split; [apply r32_pos; lia|]. apply r32_le; [apply (fmt32_pow 31); lia|]. lra. }
  destruct (div32 f32_one (f32_of_Z d) F1 Fd) as [Fq Vq]; [rewrite Vd; lra| |].
  { rewrite V1, Vd. pose proof (inv_ge_m100 (r32 (IZR d)) ltac:(lra)). rewrite Rabs_pos_eq; lra. }
  rewrite V1, Vd in Vq. pose proof (inv_ge_m100 (r32 (IZR d)) ltac:(lra)) as Hi.
  destruct (r32_rel (1 / r32 (IZR d))) as (e2 & He2 & E2). { rewrite Rabs_pos_eq by lra. pose proof bpow_m100'. lra. }
  assert (0 <= val (f32_div f32_one (f32_of_Z d)) <= 1)%R as Hq01 by (rewrite Vq; apply r32_01; lra).
  assert (0 <= r32 (IZR k) <= 2147483648)%R as Hkb.
  { split; [apply r32_ge; [apply fmt_0|apply IZR_le; lia]|]. apply r32_le; [apply (fmt32_pow 31); lia|]. apply IZR_le. lia. }
  destruct (mul32 _ _ Fq Fk) as [Fx Vx].
  { rewrite Vk. rewrite Rabs_pos_eq by (apply Rmult_le_pos; lra). rewrite <- (Rmult_1_l 8589934592). apply Rmult_le_compat; lra. }
  fold x in Fx, Vx. split; [done|]. destruct (Z.eq_dec k 0) as [->|Hnz].
  - split.
    + rewrite Vx, Vk, rne_0, Rmult_0_r, rne_0. unfold Rdiv. rewrite !Rmult_0_l, Rminus_0_r, Rabs_R0. lra.
    + intros _. unfold x. change (f32_of_Z 0) with (S754_zero false). apply SFmul_zero. apply Fq.
  - split; [|done]. destruct (r32_nat_rel k) as (e3 & He3 & E3); [lia|].
    rewrite Vq, Vk, E2, E3, E1 in Vx. assert (1 <= IZR k)%R as Hk1 by (apply IZR_le; lia).
    destruct (eps_inv e1 He1) as (e1' & He1' & Ei). apply Rabs_le_inv in He1 as He1i.
    assert (1 / (IZR d * (1 + e1)) = 1 / IZR d * (1 + e1'))%R as Ed. { rewrite <- Ei. field. split; lra. }
    rewrite Ed in Vx.
    destruct (eps_mul e1' e2 _ _ He1' He2) as (c1 & C1 & Hc1); [lra|lra|]. destruct (eps_mul c1 e3 _ _ Hc1 He3) as (c2 & C2 & Hc2); [lra|lra|].
    replace (1 / IZR d * (1 + e1') * (1 + e2) * (IZR k * (1 + e3)))%R with (IZR k / IZR d * (1 + c2))%R in Vx.
    2:{ rewrite <- C2, <- C1. field. lra. }
    set (r := (IZR k / IZR d)%R) in *.
    assert (/ 8589934592 <= r)%R as Hr.
    { pose proof (inv_ge_m100 (IZR d) ltac:(lra)) as Hid. unfold r, Rdiv in *. rewrite Rmult_1_l in Hid. rewrite <- (Rmult_1_l (/ 8589934592)). apply Rmult_le_compat; lra. }
    destruct (r32_rel (r * (1 + c2))) as (e4 & He4 & E4).
    { apply Rabs_le_inv in Hc2. pose proof bpow_m100'. rewrite Rabs_pos_eq by (apply Rmult_le_pos; lra).
      apply Rle_trans with (/ 8589934592 * / 2)%R; [lra|]. apply Rmult_le_compat; lra. }
    destruct (eps_mul c2 e4 _ _ Hc2 He4) as (c3 & C3 & Hc3); [lra|lra|].
    rewrite Vx, E4. replace (r * (1 + c2) * (1 + e4) - r)%R with (r * c3)%R by (rewrite Rmult_assoc, C3; ring).
    assert (Rabs c3 <= / 1048576)%R as Hc3' by lra.
    assert (Rabs r <= r)%R as Hra by (rewrite Rabs_pos_eq; lra).
    pose proof (mul_bd _ _ _ _ Hra Hc3') as M. unfold Rdiv. apply Rabs_le. lra.
Qed.

(** ** Float draws *)
Lemma fmt32_r r : fmt32 (r32 r).
Proof. apply generic_format_round; [apply fexp_correct, p32|apply valid_rnd_N]. Qed.
Lemma of_m256 : fin32 (S754_finite false 16777215 8) /\ val (S754_finite false 16777215 8) = IZR (4294967296 - 256).
Proof. split; [by split|]. unfold val, SF2R, F2R. change (4294967296 - 256) with (16777215 * 256). rewrite mult_IZR. reflexivity. Qed.
Lemma frng_post_spec y : 0 <= y < 4294967296 ->
  fin32 (frng_post y) /\ (0 < val (frng_post y) <= 1)%R /\ (Rabs (val (frng_post y) - IZR y / 4294967296) <= / 4194304)%R.
Proof.
  intros Hy. unfold frng_post. destruct (of_Z32 y) as [Fy Vy]; [lia|].
  assert (0 <= IZR y <= 4294967296)%R as Hyr by (split; apply IZR_le; lia).
  assert (0 <= r32 (IZR y) <= 4294967296)%R as Hb.
  { split; [apply r32_ge; [apply fmt_0|lra]|]. apply r32_le; [apply (fmt32_pow 32); lia|]. lra. }
  assert (fin32 f32_half /\ val f32_half = (/ 2)%R) as [Fh Vh].
  { split; [by split|]. unfold val, f32_half, SF2R, F2R. simpl. lra. }
  assert (fin32 f32_2pm32 /\ val f32_2pm32 = (/ 4294967296)%R) as [Fp Vp].
  { change f32_2pm32 with (S754_finite false 8388608 (-55)). split; [by split|]. unfold val, SF2R, F2R. simpl. lra. }
  destruct (add32 _ _ Fy Fh) as [Fs Vs]; [rewrite Vy, Vh, Rabs_pos_eq; lra|]. rewrite Vy, Vh in Vs.
  assert (fmt32 (/ 2)) as Fm2 by (rewrite <- Vh; by apply fin_fmt).
  assert (/ 2 <= r32 (r32 (IZR y) + / 2) <= 4294967296)%R as Hs.
  { split; [apply r32_ge; [done|lra]|].
    destruct (Rle_dec (r32 (IZR y) + / 2) 4294967296) as [|Hgt]; [apply r32_le; [apply (fmt32_pow 32); lia|done]|].
    assert (r32 (IZR y) = 4294967296)%R as ->.
    { destruct (Rle_lt_or_eq_dec _ _ (proj2 Hb)) as [Hlt|E]; [|done]. exfalso. apply Hgt. 
      (* below 2^32 the previous float is 2^32 - 256 *)
      assert (r32 (IZR y) <= 4294967296 - 256)%R; [|lra].
      assert (fmt32 (4294967296 - 256)) as Hp. { rewrite <- minus_IZR. rewrite <- (proj2 of_m256). apply fin_fmt, of_m256. }
      destruct (Rle_dec (r32 (IZR y)) (4294967296 - 256)) as [|Hgt2]; [done|]. exfalso.
      pose proof (fmt32_r (IZR y)) as Hfm.
      assert (pred radix2 (SpecFloat.fexp 24 128) (bpow radix2 32) = 4294967296 - 256)%R as Ep.
      { rewrite pred_bpow. unfold SpecFloat.fexp, SpecFloat.emin. simpl. lra. }
      pose proof (@pred_ge_gt radix2 (SpecFloat.fexp 24 128) (fexp_correct 24 128 p32) (r32 (IZR y)) (bpow radix2 32)) as Hpg.
      rewrite Ep in Hpg. apply Hgt2. apply Hpg; [done|apply (fmt32_pow 32); lia|exact Hlt]. }
    change (r32 (4294967296 + / 2) <= 4294967296)%R.
    (* computed *)
    destruct (add32 (f32_of_Z 4294967296) f32_half) as [_ Vc].
    - apply of_Z32. lia.
    - done.
    - destruct (of_Z32 4294967296) as [_ ->]; [lia|]. rewrite (rne_id 24 128) by (apply (fmt32_pow 32); lia). rewrite Vh, Rabs_pos_eq; lra.
    - destruct (of_Z32 4294967296) as [_ Ev]; [lia|]. rewrite (rne_id 24 128) in Ev by (apply (fmt32_pow 32); lia). rewrite Ev, Vh in Vc.
      rewrite <- Vc. replace (f32_add (f32_of_Z 4294967296) f32_half) with (f32_of_Z 4294967296) by reflexivity. rewrite Ev. lra. }
  assert (/ 8589934592 <= val (f32_add (f32_of_Z y) f32_half) * val f32_2pm32 <= 1)%R as Hm.
  { rewrite Vs, Vp. split; [|]; lra. }
  destruct (mul32 _ _ Fs Fp) as [Fm Vm]; [rewrite Rabs_pos_eq; lra|]. split; [done|].
  assert (fmt32 (/ 8589934592)) as Hf33.
  { replace (/ 8589934592)%R with (bpow radix2 (-33)) by (simpl; lra). apply fmt_bpow; [apply p32|lia]. }
  split.
  - rewrite Vm. split; [|apply r32_le; [apply (fmt32_int 1); lia|lra]]. eapply Rlt_le_trans; [|apply r32_ge; [exact Hf33|]]; lra.
  - rewrite Vm. destruct (r32_err (val (f32_add (f32_of_Z y) f32_half) * val f32_2pm32)) as (e3 & t3 & He3 & Ht3 & ->). rewrite Vs, Vp in *.
    destruct (r32_err (r32 (IZR y) + / 2)) as (e2 & t2 & He2 & Ht2 & E2). destruct (r32_err (IZR y)) as (e1 & t1 & He1 & Ht1 & E1).
    set (m := (r32 (r32 (IZR y) + / 2) * / 4294967296)%R) in *.
    assert (bpow radix2 (-150) <= / 1000000000000)%R as Hb150.
    { rewrite bpow_m150. pose proof bpow_m50. pose proof bpow_m100. pose proof (bpow_gt_0 radix2 (-50)). pose proof (bpow_gt_0 radix2 (-100)).
      apply Rle_trans with (1 * bpow radix2 (-50))%R; [apply Rmult_le_compat_r; lra|lra]. }
    assert (Rabs (r32 (IZR y) + / 2) <= 4294967297)%R as Ha by (rewrite Rabs_pos_eq; lra).
    assert (Rabs (IZR y) <= 4294967296)%R as Hay by (rewrite Rabs_pos_eq; lra). assert (Rabs m <= 1)%R as Ham by (rewrite Rabs_pos_eq; lra).
    pose proof (mul_bd _ _ _ _ Ha He2) as M2. pose proof (mul_bd _ _ _ _ Hay He1) as M1. pose proof (mul_bd _ _ _ _ Ham He3) as M3.
    apply Rabs_le_inv in Ht1, Ht2, Ht3. apply Rabs_le.
    assert (- (513) <= r32 (r32 (IZR y) + / 2) - IZR y <= 513)%R as D by lra.
    assert (m - IZR y / 4294967296 = (r32 (r32 (IZR y) + / 2) - IZR y) * / 4294967296)%R as Dm by (unfold m; field). lra.
Qed.

(** ** Accuracy *)
Definition acc32 (errors n : Z) : float32 := f32_sub f32_one (f32_div (f32_mul f32_one (f32_of_Z errors)) (f32_of_Z n)).
Lemma one_mul32 x : fin32 x -> (Rabs (val x) <= 8589934592)%R -> fin32 (f32_mul f32_one x) /\ val (f32_mul f32_one x) = val x.
Proof.
  intros Hx Hb. destruct one32 as [F1 V1]. destruct (mul32 f32_one x F1 Hx) as [F V]; [by rewrite V1, Rmult_1_l|].
  split; [done|]. rewrite V, V1, Rmult_1_l. apply rne_id. by apply fin_fmt.
Qed.
Lemma acc32_spec k n : 1 <= n <= int_max -> 0 <= k <= n ->
  fin32 (acc32 k n) /\ (0 <= val (acc32 k n) <= 1)%R /\ (Rabs (val (acc32 k n) - (1 - IZR k / IZR n)) <= / 1048576)%R /\
  (k = 0 -> acc32 k n = f32_one) /\ (k = n -> acc32 k n = S754_zero false).
Proof.
  intros Hn Hk. unfold int_max in Hn. unfold acc32.
  destruct (of_Z32 n) as [Fn Vn]; [lia|]. destruct (of_Z32 k) as [Fk Vk]; [lia|]. destruct one32 as [F1 V1].
  assert (1 <= IZR n <= 2147483648)%R as Hnr by (split; apply IZR_le; lia). assert (0 <= IZR k <= IZR n)%R as Hkr by (split; apply IZR_le; lia).
  assert (1 <= r32 (IZR n) <= 2147483648)%R as Hnb.
  { split; [apply r32_pos; lia|]. apply r32_le; [apply (fmt32_pow 31); lia|]. lra. }
  assert (0 <= r32 (IZR k) <= r32 (IZR n))%R as Hkb. { split; [apply r32_ge; [apply fmt_0|lra]|]. apply rne_mono; [apply p32|lra]. }
  destruct (one_mul32 _ Fk) as [Fm Vm]; [rewrite Vk, Rabs_pos_eq; lra|]. rewrite Vk in Vm.
  assert (0 <= r32 (IZR k) / r32 (IZR n) <= 1)%R as Hq.
  { split; [apply Rmult_le_pos; [lra|left; apply Rinv_0_lt_compat; lra]|]. apply Rmult_le_reg_r with (r32 (IZR n)); [lra|]. unfold Rdiv. rewrite Rmult_assoc, Rinv_l; lra. }
  destruct (div32 _ _ Fm Fn) as [Fd Vd]; [rewrite Vn; lra|rewrite Vm, Vn, Rabs_pos_eq; lra|]. rewrite Vm, Vn in Vd.
  assert (0 <= r32 (r32 (IZR k) / r32 (IZR n)) <= 1)%R as Hd by (by apply r32_01).
  destruct (sub32 _ _ F1 Fd) as [Fs Vs]; [rewrite V1, Vd, Rabs_pos_eq; lra|]. rewrite V1, Vd in Vs.
  split; [done|]. split; [rewrite Vs; apply r32_01; lra|]. split; [|split].
  - rewrite Vs. destruct (r32_err (1 - r32 (r32 (IZR k) / r32 (IZR n)))) as (e5 & t5 & He5 & Ht5 & ->).
    destruct (r32_err (r32 (IZR k) / r32 (IZR n))) as (e4 & t4 & He4 & Ht4 & E4).
    assert (exists c, (Rabs c <= / 4194304)%R /\ r32 (IZR k) / r32 (IZR n) = IZR k / IZR n * (1 + c))%R as (c & Hc & Ec).
    { destruct (Z.eq_dec k 0) as [->|Hnz].
      - exists 0%R. rewrite Rabs_R0. split; [lra|]. rewrite rne_0. unfold Rdiv. ring.
      - destruct (r32_nat_rel k) as (e3 & He3 & E3); [lia|]. destruct (r32_nat_rel n) as (e1 & He1 & E1); [lia|].
        destruct (eps_inv e1 He1) as (e1' & He1' & Ei). destruct (eps_mul e3 e1' _ _ He3 He1') as (c & Ec & Hc); [lra|lra|].
        exists c. split; [lra|]. rewrite E3, E1, <- Ec, <- Ei. apply Rabs_le_inv in He1. field. split; lra. }
    rewrite E4, Ec in *. set (r := (IZR k / IZR n)%R) in *.
    assert (0 <= r <= 1)%R as Hr.
    { split; [apply Rmult_le_pos; [lra|left; apply Rinv_0_lt_compat; lra]|]. apply Rmult_le_reg_r with (IZR n); [lra|]. unfold r, Rdiv. rewrite Rmult_assoc, Rinv_l; lra. }
    assert (bpow radix2 (-150) <= / 1000000000000)%R as Hb150.
    { rewrite bpow_m150. pose proof bpow_m50. pose proof bpow_m100. pose proof (bpow_gt_0 radix2 (-50)). pose proof (bpow_gt_0 radix2 (-100)).
      apply Rle_trans with (1 * bpow radix2 (-50))%R; [apply Rmult_le_compat_r; lra|lra]. }
    assert (Rabs (1 - (r * (1 + c) * (1 + e4) + t4)) <= 1)%R as Ha by (apply Rabs_le; lra).
    pose proof (mul_bd _ _ _ _ Ha He5) as M5. assert (Rabs (r * (1 + c)) <= 1)%R as Hb by (apply Rabs_le; lra).
    pose proof (mul_bd _ _ _ _ Hb He4) as M4. assert (Rabs r <= 1)%R as Hra by (apply Rabs_le; lra).
    pose proof (mul_bd _ _ _ _ Hra Hc) as Mc. apply Rabs_le_inv in Ht4, Ht5. apply Rabs_le. lra.
  - intros ->. rewrite rne_0 in Vs. unfold Rdiv in Vs. rewrite Rmult_0_l, rne_0, Rminus_0_r in Vs. rewrite (rne_id 24 128 1) in Vs by (apply (fmt32_int 1); lia).
    apply (val_inj 24 128); auto; lra.
  - intros ->. assert (r32 (IZR n) / r32 (IZR n) = 1)%R as E1 by (field; lra). rewrite E1 in Vs, Vd. rewrite (rne_id 24 128 1) in Vs, Vd by (apply (fmt32_int 1); lia).
    replace (f32_div (f32_mul f32_one (f32_of_Z n)) (f32_of_Z n)) with f32_one; [reflexivity|]. symmetry. apply (val_inj 24 128); auto; lra.
Qed.
