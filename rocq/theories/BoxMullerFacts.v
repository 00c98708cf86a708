(** * Facts about box_muller_approx.cpp: when the number of feedbacks of a regressor step with box_muller is defined, and what it is. *)
From stdpp Require Import tactics list.
From Verif Require Import Base Floats Rng Env CoinTosser Algo Params Estimator Wp ParamFacts Reach PropFacts EstTrain EstUpdate Toy FloatProps LossFacts.
From Coq Require Import ZArith Reals Psatz.
From Flocq Require Import Core.Core.
From Flocq Require Import Relative BinarySingleNaN.
Local Open Scope Z_scope.

(** the tables sqrt_log_u1_arr and sin_u2_arr hold the values of the formulas of box_muller_approx.cpp up to 10^-5; that leaves room for
    the rounding to float (at most 2^-23) and for the mathematical library of the compiler *)
Definition bm_tables (R : rnd) : Prop := forall i, 0 <= i < 256 ->
  (fin32 (bm1 R i) /\ Rabs (val (bm1 R i) - sqrt (- 2 * ln (IZR (1 + i) / 257))) <= / 100000)%R /\
  (fin32 (bm2 R i) /\ Rabs (val (bm2 R i) - cos (2 * PI * IZR (1 + i) / 257)) <= / 100000)%R.
(** what follows from it *)
Definition bm_bounded (R : rnd) : Prop := forall i, 0 <= i < 256 ->
  (fin32 (bm1 R i) /\ Rabs (val (bm1 R i)) <= 3335 / 1000)%R /\ (fin32 (bm2 R i) /\ Rabs (val (bm2 R i)) <= 1001 / 1000)%R.

(** *** the logarithm of 257, between 5.5485 and 5.55 *)
Lemma exp_start x : (0 <= x <= / 10)%R -> (1 + x <= exp x <= / (1 - x))%R.
Proof.
  intros Hx. split; [destruct (Req_dec x 0) as [->|]; [rewrite exp_0; lra|]; apply Rlt_le, exp_ineq1; done|].
  rewrite <- (Rinv_inv (exp x)), <- exp_Ropp. apply Rinv_le_contravar; [lra|].
  destruct (Req_dec x 0) as [->|]; [rewrite Ropp_0, exp_0; lra|]. pose proof (exp_ineq1 (- x)). lra.
Qed.
Lemma exp_up_step x y a b : (exp x <= a)%R -> (a * a <= b)%R -> (y = 2 * x)%R -> (exp y <= b)%R.
Proof. intros H1 H2 ->. replace (2 * x)%R with (x + x)%R by ring. rewrite exp_plus. pose proof (exp_pos x). eapply Rle_trans; [|exact H2]. apply Rmult_le_compat; lra. Qed.
Lemma exp_lo_step x y a b : (0 <= a)%R -> (a <= exp x)%R -> (b <= a * a)%R -> (y = 2 * x)%R -> (b <= exp y)%R.
Proof. intros H0 H1 H2 ->. replace (2 * x)%R with (x + x)%R by ring. rewrite exp_plus. eapply Rle_trans; [exact H2|]. apply Rmult_le_compat; lra. Qed.
Lemma exp_5550 : (257 <= exp (555 / 100))%R.
Proof.
  assert ((1000169372558 / 1000000000000) <= exp (555 / 3276800))%R as H0.
  { eapply Rle_trans; [|apply exp_start; lra]. lra. }
  apply (exp_lo_step _ (555 / 1638400) _ (1000338773803 / 1000000000000)) in H0; [|lra|lra|lra].
  apply (exp_lo_step _ (555 / 819200) _ (1000677662373 / 1000000000000)) in H0; [|lra|lra|lra].
  apply (exp_lo_step _ (555 / 409600) _ (1001355783972 / 1000000000000)) in H0; [|lra|lra|lra].
  apply (exp_lo_step _ (555 / 204800) _ (1002713406094 / 1000000000000)) in H0; [|lra|lra|lra].
  apply (exp_lo_step _ (555 / 102400) _ (1005434174760 / 1000000000000)) in H0; [|lra|lra|lra].
  apply (exp_lo_step _ (555 / 51200) _ (1010897879775 / 1000000000000)) in H0; [|lra|lra|lra].
  apply (exp_lo_step _ (555 / 25600) _ (1021914523333 / 1000000000000)) in H0; [|lra|lra|lra].
  apply (exp_lo_step _ (555 / 12800) _ (1044309292998 / 1000000000000)) in H0; [|lra|lra|lra].
  apply (exp_lo_step _ (555 / 6400) _ (1090581899441 / 1000000000000)) in H0; [|lra|lra|lra].
  apply (exp_lo_step _ (555 / 3200) _ (1189368879388 / 1000000000000)) in H0; [|lra|lra|lra].
  apply (exp_lo_step _ (555 / 1600) _ (1414598331256 / 1000000000000)) in H0; [|lra|lra|lra].
  apply (exp_lo_step _ (555 / 800) _ (2001088438792 / 1000000000000)) in H0; [|lra|lra|lra].
  apply (exp_lo_step _ (555 / 400) _ (4004354939867 / 1000000000000)) in H0; [|lra|lra|lra].
  apply (exp_lo_step _ (555 / 200) _ (16034858484437 / 1000000000000)) in H0; [|lra|lra|lra].
  apply (exp_lo_step _ (555 / 100) _ (257116686615921 / 1000000000000)) in H0; [|lra|lra|lra].
  eapply Rle_trans; [|exact H0].
  lra.
Qed.

Lemma exp_5549 : (exp (55485 / 10000) <= 257)%R.
Proof.
  assert (exp (55485 / 327680000) <= (1000169355459 / 1000000000000))%R as H0.
  { eapply Rle_trans; [apply exp_start; lra|]. lra. }
  apply (exp_up_step _ (55485 / 163840000) _ (1000338739600 / 1000000000000)) in H0; [|lra|lra].
  apply (exp_up_step _ (55485 / 81920000) _ (1000677593945 / 1000000000000)) in H0; [|lra|lra].
  apply (exp_up_step _ (55485 / 40960000) _ (1001355647024 / 1000000000000)) in H0; [|lra|lra].
  apply (exp_up_step _ (55485 / 20480000) _ (1002713131827 / 1000000000000)) in H0; [|lra|lra].
  apply (exp_up_step _ (55485 / 10240000) _ (1005433624739 / 1000000000000)) in H0; [|lra|lra].
  apply (exp_up_step _ (55485 / 5120000) _ (1010896773756 / 1000000000000)) in H0; [|lra|lra].
  apply (exp_up_step _ (55485 / 2560000) _ (1021912287191 / 1000000000000)) in H0; [|lra|lra].
  apply (exp_up_step _ (55485 / 1280000) _ (1044304722712 / 1000000000000)) in H0; [|lra|lra].
  apply (exp_up_step _ (55485 / 640000) _ (1090572353879 / 1000000000000)) in H0; [|lra|lra].
  apply (exp_up_step _ (55485 / 320000) _ (1189348059046 / 1000000000000)) in H0; [|lra|lra].
  apply (exp_up_step _ (55485 / 160000) _ (1414548805557 / 1000000000000)) in H0; [|lra|lra].
  apply (exp_up_step _ (55485 / 80000) _ (2000948323303 / 1000000000000)) in H0; [|lra|lra].
  apply (exp_up_step _ (55485 / 40000) _ (4003794192530 / 1000000000000)) in H0; [|lra|lra].
  apply (exp_up_step _ (55485 / 20000) _ (16030367936137 / 1000000000000)) in H0; [|lra|lra].
  apply (exp_up_step _ (55485 / 10000) _ (256972696167930 / 1000000000000)) in H0; [|lra|lra].
  eapply Rle_trans; [exact H0|].
  lra.
Qed.

Lemma ln_257 : (55485 / 10000 <= ln 257 <= 555 / 100)%R.
Proof.
  split.
  - rewrite <- (ln_exp (55485 / 10000)). destruct exp_5549 as [H|H]; [|rewrite H; lra]. apply Rlt_le, ln_increasing; [apply exp_pos|exact H].
  - rewrite <- (ln_exp (555 / 100)). destruct exp_5550 as [H|H]; [|rewrite <- H; lra]. apply Rlt_le, ln_increasing; [lra|exact H].
Qed.
(** ** The bounds of the two tables *)
Lemma log_entry i : 0 <= i < 256 -> (0 <= sqrt (- 2 * ln (IZR (1 + i) / 257)) <= 33325 / 10000)%R.
Proof.
  intros Hi. split; [apply sqrt_pos|]. assert (1 <= IZR (1 + i) <= 256)%R as H by (split; apply IZR_le; lia).
  assert (- ln 257 <= ln (IZR (1 + i) / 257))%R as Hl.
  { rewrite <- ln_Rinv by lra. destruct (Rle_lt_or_eq_dec 1 (IZR (1 + i)) (proj1 H)) as [Hlt|Heq].
    - apply Rlt_le, ln_increasing; lra.
    - rewrite <- Heq. replace (1 / 257)%R with (/ 257)%R by lra. lra. }
  pose proof ln_257. rewrite <- (sqrt_square (33325 / 10000)) by lra. apply sqrt_le_1_alt. lra.
Qed.
Lemma tables_bounded R : bm_tables R -> bm_bounded R.
Proof.
  intros HT i Hi. destruct (HT i Hi) as [[F1 H1] [F2 H2]]. pose proof (log_entry i Hi) as HL.
  pose proof (COS_bound (2 * PI * IZR (1 + i) / 257)) as HC. apply Rabs_le_inv in H1, H2.
  split; (split; [done|]); apply Rabs_le; lra.
Qed.
Lemma first_entry : (33312 / 10000 <= sqrt (- 2 * ln (IZR (1 + 0) / 257)))%R.
Proof.
  change (1 + 0) with 1. replace (1 / 257)%R with (/ 257)%R by lra. rewrite ln_Rinv by lra. pose proof ln_257.
  rewrite <- (sqrt_square (33312 / 10000)) by lra. apply sqrt_le_1_alt. lra.
Qed.
Lemma middle_entry : (cos (2 * PI * IZR (1 + 127) / 257) <= - (9998 / 10000))%R.
Proof.
  change (1 + 127) with 128. pose proof PI_4. pose proof PI_RGT_0. 
  replace (2 * PI * 128 / 257)%R with (- (PI / 257) + PI)%R by field. rewrite neg_cos, cos_neg.
  pose proof (cos_bound (PI / 257) 0 ltac:(lra) ltac:(lra)) as [Hc _].
  unfold cos_approx, cos_term in Hc. cbn in Hc.
  assert (1 - (PI / 257) * (PI / 257) / 2 <= cos (PI / 257))%R as H1 by lra.
  assert ((PI / 257) * (PI / 257) <= (4 / 257) * (4 / 257))%R by (apply Rmult_le_compat; lra). lra.
Qed.

Lemma sqrt32 x : fin32 x -> (0 <= val x)%R -> fin32 (f32_sqrt x) /\ val (f32_sqrt x) = r32 (sqrt (val x)).
Proof.
  intros Hx H0. destruct (fin_ex 24 128 x Hx) as (b & <- & Hf & Hv). unfold f32_sqrt. rewrite (sqrt_equiv 24 128 p32 m32).
  destruct (Bsqrt_correct 24 128 p32 m32 mode_NE b) as (E1 & E2 & _).
  match type of E2 with ?t = _ => assert (t = true) as Hfs end.
  { rewrite E2. destruct b as [s| | |s m e]; cbn in *; try done. destruct s; [|done]. exfalso.
    unfold val in H0. cbn in H0. unfold F2R in H0; cbn in H0. pose proof (bpow_gt_0 radix2 e) as Hb. pose proof (IZR_lt (Z.neg m) 0 ltac:(lia)) as Hm.
    change (IZR (- Z.pos m)) with (IZR (Z.neg m)) in H0. revert Hm Hb H0. generalize (IZR (Z.neg m)) (bpow radix2 e). clear. intros; nra. }
  destruct (fin_B2SF 24 128 _ Hfs) as [G1 G2]. split; [exact G1|]. rewrite G2, E1, Hv. reflexivity.
Qed.

(** ** Rounding of negative numbers *)
Lemma val_opp m e : val (S754_finite true m e) = (- val (S754_finite false m e))%R.
Proof. unfold val. cbn [SF2R]. exact (F2R_Zopp radix2 (Z.pos m) e). Qed.
Lemma to_u32_neg x : fin32 x -> (val x <= -1)%R -> to_u32 x = UB FloatToInt.
Proof.
  intros Hx Hv. destruct x as [s| | |s m e]; [cbn in Hv; lra|by destruct Hx|by destruct Hx|].
  pose proof (sgn_neg 24 128 _ Hx ltac:(lra)) as Es; cbn in Es; subst s.
  assert (1 <= Zfloor (val (S754_finite false m e))) as Hz.
  { apply Zfloor_lub. rewrite val_opp in Hv. cbn [IZR IPR]. lra. }
  rewrite <- (trunc_pair_spec m e) in Hz. cbn [to_u32]. revert Hz. unfold trunc_pair. cbn [Floats.cond_neg].
  destruct (0 <=? e); intros Hz.
  - destruct (Z.leb_spec 0 (- Z.pos m * 2 ^ e)); [lia|done].
  - destruct (Z.leb_spec 0 (- (Z.pos m / 2 ^ (- e)))); [lia|done].
Qed.
(** std::round of a number above -1/2 that is not positive is zero, of one up to -1/2 at most -1 *)
Lemma round_neg x : fin32 x -> (val x < 0)%R ->
  ((- / 2 < val x)%R -> exists s, f32_round x = S754_zero s) /\ ((val x <= - / 2)%R -> fin32 (f32_round x) /\ (val (f32_round x) <= -1)%R).
Proof.
  intros Hx Hn. destruct x as [s| | |s m e]; [cbn in Hn; lra|by destruct Hx|by destruct Hx|].
  pose proof (sgn_neg 24 128 _ Hx Hn) as Es; cbn in Es; subst s.
  assert (fin32 (S754_finite false m e)) as Hp by exact Hx.
  rewrite val_opp in *. set (v := val (S754_finite false m e)) in *.
  destruct (round32 (S754_finite false m e) Hp) as [Hr Vr]; [fold v; lra|]. fold v in Vr.
  assert (f32_round (S754_finite true m e) = SFopp (f32_round (S754_finite false m e)) \/ (v < / 2)%R /\ f32_round (S754_finite true m e) = S754_zero true) as E.
  { unfold f32_round. destruct (0 <=? e) eqn:He; [by left|].
    pose proof (round_pair_spec m e) as Ep. fold v in Ep.
    unfold round_pair in *. rewrite He in *. cbn [Floats.cond_neg] in *.
    set (k := (2 * Z.pos m + 2 ^ (- e)) / 2 ^ (1 - e)) in *.
    assert (0 <= k) as Hk. { rewrite Ep. apply Zfloor_lub. lra. }
    destruct k as [|k|k]; [|left|lia].
    - right. split; [|done]. pose proof (Zfloor_ub (v + / 2)) as Hu. rewrite <- Ep in Hu. lra.
    - change (- Z.pos k) with (Z.neg k). unfold SpecFloat.binary_normalize, SpecFloat.binary_round.
      destruct (SpecFloat.shl_align k 0 _) as [m' e']. unfold SpecFloat.binary_round_aux.
      destruct (SpecFloat.shr_fexp 24 128 (Z.pos m') e' SpecFloat.loc_Exact) as [mr er].
      destruct (SpecFloat.shr_fexp 24 128 _ er SpecFloat.loc_Exact) as [mr' er'].
      destruct (SpecFloat.shr_m mr'); [done| |done]. by destruct (er' <=? 128 - 24). }
  assert (forall y, val (SFopp y) = (- val y)%R) as Ho.
  { intros [s| | |s m' e']; unfold val; cbn; try lra. unfold F2R; cbn. destruct s; cbn; rewrite <- ?Pos2Z.opp_pos, ?opp_IZR; lra. }
  assert (forall y, fin32 y -> fin32 (SFopp y)) as Hfo. { intros [s| | |s m' e']; intros [? ?]; split; done. }
  split.
  - intros Hv. destruct E as [E|[_ E]]; [|by exists true]. rewrite E. assert (Zfloor (v + / 2) = 0) as Hz.
    { apply Zfloor_imp. change (0 + 1) with 1. lra. }
    rewrite Hz in Vr. destruct (val_zero 24 128 _ Hr Vr) as [s ->]. by exists (negb s).
  - intros Hv. destruct E as [E|[Hlt _]]; [|lra]. rewrite E. split; [by apply Hfo|]. rewrite Ho, Vr.
    assert (1 <= Zfloor (v + / 2)) as Hz by (apply Zfloor_lub; lra). apply IZR_le in Hz. lra.
Qed.

(** ** Error analysis *)
Local Open Scope R_scope.
Lemma r32_err2 r : exists eps eta, Rabs eps <= / 16777216 /\ Rabs eta <= / 10 ^ 30 /\ r32 r = r * (1 + eps) + eta.
Proof.
  destruct (r32_err r) as (e & t & He & Ht & E). exists e, t. split; [done|]. split; [|done]. eapply Rle_trans; [exact Ht|].
  rewrite bpow_m150. pose proof bpow_m100'. pose proof bpow_m50. pose proof (bpow_gt_0 radix2 (-100)). pose proof (bpow_gt_0 radix2 (-50)).
  apply Rle_trans with (/ 1000000000000000 * / 1000000000000000); [apply Rmult_le_compat; lra|]. lra.
Qed.
(** |a' b' - a b| for approximations of non-negative numbers *)
Lemma abs_mul x y X Y : Rabs x <= X -> Rabs y <= Y -> Rabs (x * y) <= X * Y.
Proof. intros. rewrite Rabs_mult. apply Rmult_le_compat; try apply Rabs_pos; done. Qed.
(** rounding once more *)
Lemma round_more r x A : Rabs (r - x) <= A -> 0 <= A -> Rabs (r32 r - x) <= A * (1 + / 16777216) + Rabs x * / 16777216 + / 10 ^ 30.
Proof.
  intros H HA. destruct (r32_err2 r) as (e & t & He & Ht & ->).
  replace (r * (1 + e) + t - x) with ((r - x) + ((r - x) * e + (x * e + t))) by ring.
  eapply Rle_trans; [apply Rabs_triang|].
  apply Rle_trans with (A + (A * / 16777216 + (Rabs x * / 16777216 + / 10 ^ 30))); [|lra].
  apply Rplus_le_compat; [done|]. eapply Rle_trans; [apply Rabs_triang|]. apply Rplus_le_compat; [by apply abs_mul|].
  eapply Rle_trans; [apply Rabs_triang|]. apply Rplus_le_compat; [|done]. apply abs_mul; [lra|done].
Qed.
Lemma sqrt_close v V e t : 0 <= v -> 0 <= V -> 0 <= e <= / 1000 -> 0 <= t -> Rabs (V - v) <= v * e + t -> Rabs (sqrt V - sqrt v) <= sqrt v * e + sqrt t.
Proof.
  intros Hv HV He Ht H. apply Rabs_le_inv in H as [H1 H2].
  assert (forall a b, 0 <= a -> 0 <= b -> sqrt (a + b) <= sqrt a + sqrt b) as Hs.
  { intros a b Ha Hb. pose proof (sqrt_pos a). pose proof (sqrt_pos b).
    apply Rsqr_incr_0_var; [|lra]. rewrite Rsqr_sqrt by lra. rewrite Rsqr_plus, !Rsqr_sqrt by done. nra. }
  pose proof (sqrt_pos v) as Hp. apply Rabs_le. split.
  - assert (sqrt (v * (1 - e)) <= sqrt V + sqrt t) as H.
    { eapply Rle_trans; [|apply Hs; done]. apply sqrt_le_1_alt. lra. }
    assert (sqrt v * (1 - e) <= sqrt (v * (1 - e))) as H'.
    { rewrite sqrt_mult_alt by done. apply Rmult_le_compat_l; [done|].
      rewrite <- (sqrt_square (1 - e)) at 1 by lra. apply sqrt_le_1_alt. nra. }
    lra.
  - assert (sqrt V <= sqrt (v * (1 + e)) + sqrt t) as H.
    { eapply Rle_trans; [|apply Hs; [apply Rmult_le_pos; lra|done]]. apply sqrt_le_1_alt. lra. }
    assert (sqrt (v * (1 + e)) <= sqrt v * (1 + e)) as H'.
    { rewrite sqrt_mult_alt by done. apply Rmult_le_compat_l; [done|].
      rewrite <- (sqrt_square (1 + e)) at 2 by lra. apply sqrt_le_1_alt. nra. }
    lra.
Qed.
Lemma sqrt_1e22 : sqrt (/ 10 ^ 22) = / 10 ^ 11.
Proof. replace (/ 10 ^ 22) with ((/ 10 ^ 11) * (/ 10 ^ 11)) by lra. apply sqrt_square. lra. Qed.

(** computed variance, deviation and value against the real ones *)
Section Close.
  Context (n p z : R) (Hn : 0 <= n <= 1048576) (Hp : 0 <= p <= 1) (Hz : Rabs z <= 334 / 100).
  Let m := n * p.
  Let v := m * (1 - p).
  Let d := sqrt v.
  Let M := r32 (n * p).
  Let Q := r32 (1 - p).
  Let V := r32 (M * Q).
  Let D := r32 (sqrt V).
  Let T := r32 z.
  Let P := r32 (D * T).
  Let X := r32 (M + P).
  Let m0 : 0 <= m <= 1048576.
  Proof using Hn Hp. unfold m. split; [apply Rmult_le_pos; lra|]. replace 1048576 with (1048576 * 1) by ring. apply Rmult_le_compat; lra. Qed.
  Let v0 : 0 <= v <= m.
  Proof using Hn Hp. pose proof m0. unfold v. split; [apply Rmult_le_pos; lra|]. rewrite <- (Rmult_1_r m) at 2. apply Rmult_le_compat_l; lra. Qed.
  Let d0 : 0 <= d <= 1024.
  Proof using Hn Hp. unfold d. split; [apply sqrt_pos|]. replace 1024 with (sqrt (1024 * 1024)) by (apply sqrt_square; lra). apply sqrt_le_1_alt. pose proof m0. pose proof v0. lra. Qed.
  Lemma M_close : Rabs (M - m) <= m * / 16777216 + / 10 ^ 30.
  Proof using Hn Hp.
    pose proof m0. unfold M. fold m. destruct (r32_err2 m) as (e & t & He & Ht & ->). replace (m * (1 + e) + t - m) with (m * e + t) by ring.
    eapply Rle_trans; [apply Rabs_triang|]. apply Rplus_le_compat; [|done]. apply abs_mul; [|done]. rewrite Rabs_pos_eq; lra.
  Qed.
  Lemma M_range : 0 <= M <= 1048576.
  Proof using Hn Hp. pose proof m0 as H. unfold M. fold m. split; [apply r32_ge; [apply fmt_0|lra]|]. apply r32_le; [|lra]. apply (fmt32_int 1048576). done. Qed.
  Lemma Q_range : 0 <= Q <= 1.
  Proof using Hp. apply r32_01. lra. Qed.
  Lemma Q_close : Rabs (Q - (1 - p)) <= (1 - p) * / 16777216 + / 10 ^ 30.
  Proof using Hp.
    unfold Q. destruct (r32_err2 (1 - p)) as (e & t & He & Ht & ->). replace ((1 - p) * (1 + e) + t - (1 - p)) with ((1 - p) * e + t) by ring.
    eapply Rle_trans; [apply Rabs_triang|]. apply Rplus_le_compat; [|done]. apply abs_mul; [|done]. rewrite Rabs_pos_eq; lra.
  Qed.
  Lemma V_close : Rabs (V - v) <= v * / 4194304 + / 10 ^ 22.
  Proof using Hn Hp.
    pose proof m0 as Hm. pose proof v0 as Hv. pose proof M_close as HM. pose proof Q_close as HQ. pose proof Q_range as RQ.
    assert (Rabs (M * Q - v) <= v * (21 / 10 * / 16777216) + / 10 ^ 23) as H.
    { unfold v. replace (M * Q - m * (1 - p)) with ((M - m) * (Q - (1 - p)) + ((M - m) * (1 - p) + m * (Q - (1 - p)))) by ring.
      assert (Rabs (m * (Q - (1 - p))) <= m * ((1 - p) * / 16777216 + / 10 ^ 30)) as H1.
      { apply abs_mul; [rewrite Rabs_pos_eq; lra|done]. }
      assert (Rabs ((M - m) * (1 - p)) <= (m * / 16777216 + / 10 ^ 30) * (1 - p)) as H2.
      { apply abs_mul; [done|rewrite Rabs_pos_eq; lra]. }
      assert (Rabs ((M - m) * (Q - (1 - p))) <= (m * / 16777216 + / 10 ^ 30) * ((1 - p) * / 16777216 + / 10 ^ 30)) as H3 by by apply abs_mul.
      eapply Rle_trans; [apply Rabs_triang|]. eapply Rle_trans; [apply Rplus_le_compat_l, Rabs_triang|].
      eapply Rle_trans; [apply Rplus_le_compat; [exact H3|apply Rplus_le_compat; [exact H2|exact H1]]|].
      fold v in Hv. unfold v in Hv. nra. }
    unfold V. eapply Rle_trans; [apply round_more; [exact H|]|].
    - assert (0 <= v * (21 / 10 * / 16777216)) by (apply Rmult_le_pos; lra). lra.
    - rewrite (Rabs_pos_eq v) by lra. lra.
  Qed.
  Lemma V_range : 0 <= V <= 1048576.
  Proof using Hn Hp.
    pose proof M_range. pose proof Q_range. unfold V. split; [apply r32_ge; [apply fmt_0|apply Rmult_le_pos; lra]|].
    apply r32_le; [apply (fmt32_int 1048576); done|]. replace 1048576 with (1048576 * 1) by ring. apply Rmult_le_compat; lra.
  Qed.
  Lemma D_close : Rabs (D - d) <= d * / 3000000 + / 10 ^ 10.
  Proof using Hn Hp.
    pose proof v0. pose proof d0. pose proof V_range. pose proof V_close as HV.
    apply sqrt_close in HV; [|lra|lra|lra|lra]. rewrite sqrt_1e22 in HV. fold d in HV.
    unfold D. eapply Rle_trans; [apply round_more; [exact HV|lra]|]. rewrite (Rabs_pos_eq d) by lra. lra.
  Qed.
  Lemma D_range : 0 <= D <= 1024.
  Proof using Hn Hp.
    pose proof V_range. unfold D. split; [apply r32_ge; [apply fmt_0|apply sqrt_pos]|]. apply r32_le; [apply (fmt32_int 1024); done|].
    replace 1024 with (sqrt (1024 * 1024)) by (apply sqrt_square; lra). apply sqrt_le_1_alt. lra.
  Qed.
  Lemma T_close : Rabs (T - z) <= / 4000000.
  Proof using Hz.
    unfold T. eapply Rle_trans; [apply (round_more z z 0)|]; [|lra|lra]. replace (z - z) with 0 by ring. rewrite Rabs_R0. lra.
  Qed.
  Lemma T_range : Rabs T <= 4.
  Proof using Hz. pose proof T_close as H. apply Rabs_le_inv in H. apply Rabs_le_inv in Hz. apply Rabs_le. lra. Qed.
  Lemma P_close : Rabs (P - d * z) <= d * / 300000 + / 10 ^ 9.
  Proof using Hn Hp Hz.
    pose proof d0 as Hd. pose proof D_close as HD. pose proof T_close as HT. pose proof T_range as RT.
    assert (Rabs (D * T - d * z) <= d * (4 / 3000000 + / 4000000) + 4 * / 10 ^ 10) as H.
    { replace (D * T - d * z) with ((D - d) * T + d * (T - z)) by ring. eapply Rle_trans; [apply Rabs_triang|].
      assert (Rabs ((D - d) * T) <= (d * / 3000000 + / 10 ^ 10) * 4) as H1 by by apply abs_mul.
      assert (Rabs (d * (T - z)) <= d * / 4000000) as H2 by (apply abs_mul; [rewrite Rabs_pos_eq; lra|done]). lra. }
    unfold P. eapply Rle_trans; [apply round_more; [exact H|lra]|].
    assert (Rabs (d * z) <= d * (334 / 100)) by (apply abs_mul; [rewrite Rabs_pos_eq; lra|done]). lra.
  Qed.
  Lemma P_range : Rabs P <= 4096.
  Proof using Hn Hp Hz.
    pose proof D_range as HD. pose proof T_range as HT. assert (Rabs (D * T) <= 1024 * 4) as H by (apply abs_mul; [rewrite Rabs_pos_eq; lra|done]).
    apply Rabs_le_inv in H. unfold P. apply Rabs_le. split; [apply r32_ge|apply r32_le]; try lra; [apply (fmt32_int (-4096))|apply (fmt32_int 4096)]; done.
  Qed.
  Lemma X_close : Rabs (X - (m + d * z)) <= m * / 6000000 + d * / 200000 + / 10 ^ 8.
  Proof using Hn Hp Hz.
    pose proof m0 as Hm. pose proof d0 as Hd. pose proof M_close as HM. pose proof P_close as HP.
    assert (Rabs (M + P - (m + d * z)) <= (m * / 16777216 + / 10 ^ 30) + (d * / 300000 + / 10 ^ 9)) as H.
    { replace (M + P - (m + d * z)) with ((M - m) + (P - d * z)) by ring. eapply Rle_trans; [apply Rabs_triang|]. by apply Rplus_le_compat. }
    unfold X. eapply Rle_trans; [apply round_more; [exact H|lra]|].
    assert (Rabs (m + d * z) <= m + d * (334 / 100)) as H1.
    { eapply Rle_trans; [apply Rabs_triang|]. rewrite (Rabs_pos_eq m) by lra. apply Rplus_le_compat_l. apply abs_mul; [rewrite Rabs_pos_eq; lra|done]. }
    lra.
  Qed.
  Lemma d_sq : d * d = v.
  Proof using Hn Hp. apply sqrt_def. pose proof v0. lra. Qed.
  (** far from zero the value is positive *)
  Lemma X_big : 20 < m -> 0 <= X.
  Proof using Hn Hp Hz.
    intros Hb. pose proof m0 as Hm. pose proof v0 as Hv. pose proof d0 as Hd. pose proof d_sq as Hs. pose proof X_close as HX.
    assert (d * d <= m) as Hdm by lra.
    assert (d <= m * (23 / 100)) as Hdl. { destruct (Rle_dec d (m * (23/100))); [done|]. exfalso. nra. }
    apply Rabs_le_inv in HX. apply Rabs_le_inv in Hz. assert (- (d * (334 / 100)) <= d * z) by nra. lra.
  Qed.
  Lemma X_lower : m - 334 / 100 * d >= - (49 / 100) -> - / 2 < X.
  Proof using Hn Hp Hz.
    intros Hb. destruct (Rlt_dec 20 m) as [Hm|Hm]; [pose proof (X_big Hm); lra|].
    pose proof m0 as Hm0. pose proof d0 as Hd. pose proof v0 as Hv. pose proof d_sq as Hs. pose proof X_close as HX.
    apply Rabs_le_inv in HX. apply Rabs_le_inv in Hz. assert (- (d * (334 / 100)) <= d * z) by nra.
    assert (d <= 5) by nra. lra.
  Qed.
  Lemma X_near : m - 334 / 100 * d >= - (49 / 100) -> Rabs (X - m) <= 334 / 100 * d + / 4 /\ (X < 0 -> m <= 334 / 100 * d + / 2).
  Proof using Hn Hp Hz.
    intros Hb. pose proof m0 as Hm0. pose proof d0 as Hd. pose proof v0 as Hv. pose proof d_sq as Hs. pose proof X_close as HX.
    apply Rabs_le_inv in HX. pose proof Hz as Hz'. apply Rabs_le_inv in Hz'. assert (- (d * (334 / 100)) <= d * z <= d * (334 / 100)) by nra.
    split; [apply Rabs_le; lra|]. intros Hneg. destruct (Rlt_dec 20 m) as [Hm|Hm]; [pose proof (X_big Hm); lra|].
    assert (d <= 5) by nra. lra.
  Qed.
  Lemma X_negative : z <= - (333 / 100) -> m - 333 / 100 * d <= - (51 / 100) -> X <= - / 2.
  Proof using Hn Hp Hz.
    intros Hzl Hb. pose proof m0 as Hm0. pose proof d0 as Hd. pose proof v0 as Hv. pose proof d_sq as Hs. pose proof X_close as HX.
    apply Rabs_le_inv in HX. assert (d * z <= - (d * (333 / 100))) by nra. assert (d <= 334 / 100) by nra. assert (m <= 12) by nra. lra.
  Qed.
  Lemma X_range : Rabs X <= 2097152.
  Proof using Hn Hp Hz.
    pose proof M_range as HM. pose proof P_range as HP. apply Rabs_le_inv in HP. unfold X. apply Rabs_le.
    split; [apply r32_ge|apply r32_le]; try lra; [apply (fmt32_int (-2097152))|apply (fmt32_int 2097152)]; done.
  Qed.
End Close.
Local Open Scope Z_scope.

(** mean and deviation of the distribution that box_muller approximates *)
Definition mean (n : Z) (p : float32) : R := (IZR n * val p)%R.
Definition deviation (n : Z) (p : float32) : R := sqrt (mean n p * (1 - val p)).

Section Count.
  Context {R : rnd} (HT : bm_tables R).
  Context (n : Z) (Hn : 0 <= n <= 1048576) (p : float32) (Hp : fin32 p) (Hp1 : (0 <= val p <= 1)%R) (g : eG R).
  Let r := (g_next R g).1.
  Let t1 := bm1 R (r mod 256).
  Let t2 := bm2 R (r / 256 mod 256).
  Let z := (val t1 * val t2)%R.
  Let HnR : (0 <= IZR n <= 1048576)%R.
  Proof using Hn. split; apply IZR_le; lia. Qed.
  Let Ht1 : fin32 t1 /\ (Rabs (val t1) <= 3335 / 1000)%R.
  Proof using HT. apply (tables_bounded R HT). apply Z.mod_pos_bound. lia. Qed.
  Let Ht2 : fin32 t2 /\ (Rabs (val t2) <= 1001 / 1000)%R.
  Proof using HT. apply (tables_bounded R HT). apply Z.mod_pos_bound. lia. Qed.
  Let Hz : (Rabs z <= 334 / 100)%R.
  Proof using HT. destruct Ht1 as [_ H1], Ht2 as [_ H2]. unfold z. eapply Rle_trans; [by apply abs_mul|]. lra. Qed.
  (** the float that is rounded *)
  Let x := (bm_normal R (f32_mul (f32_of_Z n) p) (f32_mul (f32_mul (f32_of_Z n) p) (f32_sub f32_one p)) g).1.
  Let N := IZR n.
  Let X := r32 (r32 (N * val p) + r32 (r32 (sqrt (r32 (r32 (N * val p) * r32 (1 - val p)))) * r32 z))%R.
  Lemma x_spec : fin32 x /\ val x = X.
  Proof using HT Hn Hp Hp1.
    destruct (of_Z32_small n) as [Fn Vn]; [lia|]. destruct one32 as [F1 V1].
    pose proof (M_range N (val p) HnR Hp1) as BM. pose proof (Q_range (val p) Hp1) as BQ. pose proof (V_range N (val p) HnR Hp1) as BV.
    pose proof (D_range N (val p) HnR Hp1) as BD. pose proof (T_range z Hz) as BT. pose proof (P_range N (val p) z HnR Hp1 Hz) as BP.
    destruct (mul32 (f32_of_Z n) p Fn Hp) as [FM VM]. { rewrite Vn. rewrite Rabs_pos_eq; [nra|]. apply Rmult_le_pos; lra. }
    rewrite Vn in VM. fold N in VM.
    destruct (sub32 f32_one p F1 Hp) as [FQ VQ]. { rewrite V1. apply Rabs_le. lra. } rewrite V1 in VQ.
    destruct (mul32 _ _ FM FQ) as [FV VV]. { rewrite VM, VQ. rewrite Rabs_pos_eq; [nra|]. apply Rmult_le_pos; lra. }
    rewrite VM, VQ in VV.
    destruct (sqrt32 _ FV) as [FD VD]. { rewrite VV. lra. } rewrite VV in VD.
    destruct (mul32 t1 t2 (proj1 Ht1) (proj1 Ht2)) as [FT VT]. { eapply Rle_trans; [exact Hz|lra]. } fold z in VT.
    destruct (mul32 _ _ FD FT) as [FP VP]. { rewrite VD, VT. eapply Rle_trans; [apply abs_mul with (X := 1024%R) (Y := 4%R)|lra]; [rewrite Rabs_pos_eq; lra|done]. }
    rewrite VD, VT in VP.
    destruct (add32 _ _ FM FP) as [FX VX]. { rewrite VM, VP. eapply Rle_trans; [apply Rabs_triang|]. rewrite (Rabs_pos_eq (r32 _)) by lra. lra. }
    rewrite VM, VP in VX.
    unfold x, bm_normal, t1, t2, r in *. destruct (g_next R g) as [r' g']. cbn [fst] in *. exact (conj FX VX).
  Qed.
  Lemma binomial_split : feedback_hits (R := R) true n p g = let* rv := to_u32 (f32_round x) in Ret (Z.max 0 (Z.min rv n), (g_next R g).2).
  Proof using HT Hn Hp Hp1.
    unfold feedback_hits, bm_binomial, x, bm_normal. destruct (g_next R g) as [r' g']. reflexivity.
  Qed.
  Lemma count_defined : (mean n p - 334 / 100 * deviation n p >= - (49 / 100))%R ->
    exists h, feedback_hits (R := R) true n p g = Ret (h, (g_next R g).2) /\ 0 <= h <= n /\ (Rabs (IZR h - mean n p) <= 334 / 100 * deviation n p + 1)%R.
  Proof using HT Hn Hp Hp1.
    intros Hb. rewrite binomial_split. destruct x_spec as [Fx Vx]. fold N in Hb.
    pose proof (X_lower N (val p) z HnR Hp1 Hz Hb) as Hl. pose proof (X_near N (val p) z HnR Hp1 Hz Hb) as [Hc H0].
    pose proof (X_range N (val p) z HnR Hp1 Hz) as Hr. fold X in Hl, Hc, H0, Hr.
    assert (0 <= mean n p <= N)%R as Hm. { unfold mean, N. pose proof HnR. nra. }
    assert (0 <= deviation n p)%R as Hd by apply sqrt_pos.
    change (sqrt (N * val p * (1 - val p))) with (deviation n p) in *. change (N * val p)%R with (mean n p) in *.
    destruct (Rlt_dec X 0) as [Hneg|Hpos].
    - destruct (round_neg x Fx) as [HR _]; [rewrite Vx; lra|]. destruct HR as [s E]; [rewrite Vx; lra|]. rewrite E. cbn [to_u32 obind].
      exists 0. rewrite (Z.min_l 0 n) by lia. split; [done|]. split; [lia|]. specialize (H0 Hneg). apply Rabs_le. lra.
    - destruct (round32 x Fx) as [FR VR]; [rewrite Vx; lra|]. rewrite Vx in VR.
      apply Rabs_le_inv in Hr. apply Rabs_le_inv in Hc.
      pose proof (Zfloor_lb (X + / 2)) as L1. pose proof (Zfloor_ub (X + / 2)) as L2. set (k := Zfloor (X + / 2)) in *.
      assert (0 <= k) as Hk0. { apply Zfloor_lub. cbn [IZR]. lra. }
      assert (k < 4194304) as Hk1. { apply lt_IZR. lra. }
      pose proof (IZR_le _ _ Hk0). pose proof (IZR_lt _ _ Hk1).
      rewrite (to_u32_spec 24 128 _ FR); [|rewrite VR; lra]. rewrite VR, Zfloor_IZR. cbn [obind].
      exists (Z.max 0 (Z.min k n)). split; [done|]. split; [lia|]. apply Rabs_le.
      destruct (Z.le_gt_cases k n) as [Hkn|Hkn].
      + rewrite (Z.min_l k n), Z.max_r by lia. lra.
      + rewrite (Z.min_r k n), Z.max_r by lia. fold N. apply IZR_lt in Hkn. fold N in Hkn. lra.
  Qed.
  Lemma count_undefined : (z <= - (333 / 100))%R -> (mean n p - 333 / 100 * deviation n p <= - (51 / 100))%R ->
    feedback_hits (R := R) true n p g = UB FloatToInt.
  Proof using HT Hn Hp Hp1.
    intros Hzl Hb. rewrite binomial_split. destruct x_spec as [Fx Vx].
    pose proof (X_negative N (val p) z HnR Hp1 Hz Hzl Hb) as Hl. fold X in Hl.
    destruct (round_neg x Fx) as [_ HR]; [rewrite Vx; lra|]. destruct HR as [FR VR]; [rewrite Vx; lra|].
    by rewrite (to_u32_neg _ FR VR).
  Qed.
End Count.

Lemma box_muller_undefined {R : rnd} n p (g : eG R) : bm_tables R -> 0 <= n <= 1048576 -> fin32 p -> (0 <= val p <= 1)%R -> (mean n p - 333 / 100 * deviation n p <= - (51 / 100))%R ->
  (g_next R g).1 mod 65536 = 32512 -> feedback_hits (R := R) true n p g = UB FloatToInt.
Proof.
  intros HT Hn Hp Hp1 Hb Hg. apply (count_undefined HT n Hn p Hp Hp1 g); [|done].
  assert ((g_next R g).1 mod 256 = 0) as ->.
  { rewrite (Z.div_mod (g_next R g).1 65536), Hg by lia. replace (65536 * ((g_next R g).1 / 65536) + 32512) with ((256 * ((g_next R g).1 / 65536) + 127) * 256) by lia. apply Z.mod_mul. lia. }
  assert ((g_next R g).1 / 256 mod 256 = 127) as ->.
  { rewrite (Z.div_mod (g_next R g).1 65536), Hg by lia. replace (65536 * ((g_next R g).1 / 65536) + 32512) with ((256 * ((g_next R g).1 / 65536) + 127) * 256) by lia.
    rewrite Z.div_mul by lia. rewrite Z.add_comm, Z.mul_comm, Z_mod_plus by lia. done. }
  destruct (HT 0 ltac:(lia)) as [[_ H1] _], (HT 127 ltac:(lia)) as [_ [_ H2]]. pose proof first_entry as E1. pose proof middle_entry as E2.
  apply Rabs_le_inv in H1, H2. assert (3331 / 1000 <= val (bm1 R 0))%R as K1 by lra. assert (val (bm2 R 127) <= - (99975 / 100000))%R as K2 by lra.
  revert K1 K2. generalize (val (bm1 R 0)) (val (bm2 R 127)). clear. intros; nra.
Qed.

(** ** The count of a regressor update *)
Section Estimator.
  Context {R : rnd} (a : reg_args) (err : Z) (loss : float32 -> float32) (g : eG R).
  Context (HT : bm_tables R) (Ha : reg_valid a) (Hl : loss_sound a) (Hb : ra_box_muller a = true) (Hc : ra_clauses a <= 2097152).
  Context (E : make_loss_fn (ra_loss a) (ra_C1 a) = Ret loss) (He : - ra_threshold a <= err <= ra_threshold a).
  Let n := ra_clauses a / 2.
  Let p := loss (f32_div (f32_of_Z err) (f32_of_Z (ra_threshold a))).
  Lemma reg_p : 0 <= n <= 1048576 /\ fin32 p /\ (0 <= val p <= 1)%R.
  Proof using Ha Hl Hc E He.
    pose proof (loss_sound_fine a loss (rva_typed _ Ha) Hl E) as Hf. pose proof Ha as [[] [] _]. unfold is_int in *.
    destruct (rel_err_spec err (ra_threshold a)) as (F & B & Hr); [unfold int_max in *; lia|done|].
    destruct (reg_n_facts a Ha) as (Ecl & _ & Hn1). assert (ra_clauses a / 2 = Z.of_nat (reg_n a)) as Eq by lia.
    split; [unfold n; lia|]. exact (lf_fin _ Hf _ F ltac:(apply Rabs_le; lra)).
  Qed.
  Lemma reg_box_muller_defined : (mean n p - 334 / 100 * deviation n p >= - (49 / 100))%R ->
    exists h, feedback_hits (R := R) (ra_box_muller a) n p g = Ret (h, (g_next R g).2) /\ 0 <= h <= n /\ (Rabs (IZR h - mean n p) <= 334 / 100 * deviation n p + 1)%R.
  Proof using HT Ha Hl Hb Hc E He. rewrite Hb. destruct reg_p as (Hn & Fp & Hp). exact (count_defined HT n Hn p Fp Hp g). Qed.
  Lemma reg_box_muller_undefined : (mean n p - 333 / 100 * deviation n p <= - (51 / 100))%R -> (g_next R g).1 mod 65536 = 32512 ->
    feedback_hits (R := R) (ra_box_muller a) n p g = UB FloatToInt.
  Proof using HT Ha Hl Hb Hc E He. rewrite Hb. destruct reg_p as (Hn & Fp & Hp). intros H1 H2. exact (box_muller_undefined n p g HT Hn Fp Hp H1 H2). Qed.
End Estimator.

(** ** A generator with such tables, for the examples *)
Definition approx32 (x : Rdefinitions.R) : float32 := f32_div (f32_of_Z (Zfloor (x * 1048576))) (f32_of_Z 1048576).
Lemma approx32_spec x : (Rabs x <= 4)%R -> fin32 (approx32 x) /\ (Rabs (val (approx32 x) - x) <= / 100000)%R.
Proof.
  intros Hx. pose proof Hx as Hx'. apply Rabs_le_inv in Hx'. pose proof (Zfloor_lb (x * 1048576)) as L1. pose proof (Zfloor_ub (x * 1048576)) as L2. unfold approx32.
  set (k := Zfloor (x * 1048576)) in *. assert (-4194304 <= k) by (apply Zfloor_lub; lra). assert (k < 4194305) by (apply lt_IZR; lra).
  destruct (of_Z32_small k) as [Fk Vk]; [lia|]. destruct (of_Z32_small 1048576) as [Fd Vd]; [lia|].
  destruct (div32 (f32_of_Z k) (f32_of_Z 1048576) Fk Fd) as [F V]; [rewrite Vd; lra|rewrite Vk, Vd; apply Rabs_le; lra|].
  split; [done|]. rewrite V, Vk, Vd. eapply Rle_trans; [apply (round_more _ _ (/ 1048576)); [apply Rabs_le; lra|lra]|]. lra.
Qed.
(** draws its state, never changes it *)
Definition bm_rnd : rnd := {|
  eG := Z; g_init z := z mod 4294967296; g_next g := (g, g);
  eF := Z; f_init z := z; f_next f := (f32_one, f);
  shuf g n := (seq 0 n, g); ltr := true; tfuel := 10;
  bm1 i := approx32 (sqrt (- 2 * ln (IZR (1 + i) / 257)));
  bm2 i := approx32 (cos (2 * PI * IZR (1 + i) / 257)) |}.
Lemma bm_rnd_tables : bm_tables bm_rnd.
Proof.
  intros i Hi. pose proof (log_entry i Hi) as H1. pose proof (COS_bound (2 * PI * IZR (1 + i) / 257)) as H2.
  split; [apply (approx32_spec (sqrt (- 2 * ln (IZR (1 + i) / 257)))); clear H2; revert H1|apply (approx32_spec (cos (2 * PI * IZR (1 + i) / 257))); clear H1; revert H2].
  - generalize (sqrt (- 2 * ln (IZR (1 + i) / 257))). clear. intros x H. apply Rabs_le. lra.
  - generalize (cos (2 * PI * IZR (1 + i) / 257)). clear. intros x H. apply Rabs_le. lra.
Qed.
(** a regressor with 100 clauses, threshold 16 and box_muller *)
Definition bm_args : reg_args := RegArgs 100 10 (f32_of_Z 3) 16 true 7 true 2 false "auto" 16 "MAE" (S754_zero false) true (Some 42).
Definition bm_a : reg_args := reg_norm 4 99 bm_args.
Lemma bm_a_valid : reg_valid bm_a /\ loss_sound bm_a /\ ra_box_muller bm_a = true /\ ra_clauses bm_a / 2 = 50 /\ ra_threshold bm_a = 16.
Proof.
  assert (reg_typed bm_args) as Ht by by constructor.
  split; [|split; [left; auto|repeat split; vm_compute; reflexivity]].
  exact (rc_valid _ _ (reg_factory_created 4 99 bm_args (params_of (make_regressor_params_from_args 4 99 bm_args)) Ht ltac:(vm_compute; reflexivity))).
Qed.
Lemma val_half_16th : (val (f32_div (f32_of_Z 8) (f32_of_Z 16)) = / 2)%R /\ (val (f32_div (f32_of_Z 1) (f32_of_Z 16)) = / 16)%R.
Proof.
  assert (f32_div (f32_of_Z 8) (f32_of_Z 16) = S754_finite false 8388608 (-24)) as -> by (vm_compute; reflexivity).
  assert (f32_div (f32_of_Z 1) (f32_of_Z 16) = S754_finite false 8388608 (-27)) as -> by (vm_compute; reflexivity).
  rewrite !val_neg_exp by lia. cbn [Floats.cond_neg].
  change (2 ^ (- -24)) with 16777216. change (2 ^ (- -27)) with 134217728. lra.
Qed.
(** with error 8 the mean is 25 and the condition holds; with error 1 the mean is 3.125 and it fails, and from state 32512 that draw comes *)
Lemma bm_example loss : make_loss_fn (ra_loss bm_a) (ra_C1 bm_a) = Ret loss ->
  let p err := loss (f32_div (f32_of_Z err) (f32_of_Z (ra_threshold bm_a))) in
  (mean 50 (p 8%Z) = 25 /\ mean 50 (p 8%Z) - 334 / 100 * deviation 50 (p 8%Z) >= - (49 / 100))%R /\
  (mean 50 (p 1%Z) = 3125 / 1000 /\ mean 50 (p 1%Z) - 333 / 100 * deviation 50 (p 1%Z) <= - (51 / 100))%R /\ (g_next bm_rnd 32512).1 mod 65536 = 32512.
Proof.
  intros E p. destruct bm_a_valid as (_ & _ & _ & _ & HT). destruct val_half_16th as [V1 V2].
  destruct (make_loss_cases _ _ _ E) as [[_ H]|[[[?|?] _]|[[? _]|[? _]]]]; try discriminate.
  assert (p 8 = f32_div (f32_of_Z 8) (f32_of_Z 16) /\ p 1 = f32_div (f32_of_Z 1) (f32_of_Z 16)) as [P1 P2].
  { unfold p. rewrite HT, !H. split; vm_compute; reflexivity. }
  rewrite P1, P2. unfold deviation, mean. rewrite V1, V2.
  assert (sqrt (50 * / 2 * (1 - / 2)) <= 4)%R.
  { replace 4%R with (sqrt (4 * 4)) by (apply sqrt_square; lra). apply sqrt_le_1_alt. lra. }
  assert (3 / 2 <= sqrt (50 * / 16 * (1 - / 16)))%R.
  { replace (3 / 2)%R with (sqrt ((3 / 2) * (3 / 2))) by (apply sqrt_square; lra). apply sqrt_le_1_alt. lra. }
  split; [lra|]. split; [lra|]. reflexivity.
Qed.
