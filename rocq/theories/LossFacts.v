(** * Loss functions and the number of feedbacks given by one regressor update. *)
From stdpp Require Import tactics.
From Verif Require Import Base Floats Rng Env CoinTosser Algo Wp.
From Coq Require Import ZArith Reals Psatz.
From Flocq Require Import Core.Core.
From Flocq Require Import Relative BinarySingleNaN.
From Verif Require Export FloatFacts.
Local Open Scope Z_scope.

(** ** Relative error *)
Definition rel_err (err T : Z) : float32 := f32_div (f32_of_Z err) (f32_of_Z T).
Lemma rel_err_spec err T : 1 <= T <= int_max -> - T <= err <= T ->
  fin32 (rel_err err T) /\ (-1 <= val (rel_err err T) <= 1)%R /\ (Rabs (val (rel_err err T) - IZR err / IZR T) <= / 1048576)%R.
Proof.
  intros HT He. unfold int_max in HT. unfold rel_err.
  destruct (of_Z32 T) as [Ft Vt]; [lia|]. destruct (of_Z32 err) as [Fe Ve]; [lia|].
  assert (1 <= IZR T <= 2147483648)%R as HTr by (split; apply IZR_le; lia).
  assert (1 <= r32 (IZR T) <= 2147483648)%R as HTb.
  { split; [apply r32_pos; lia|]. apply r32_le; [apply (fmt32_pow 31); lia|]. lra. }
  assert (- r32 (IZR T) <= r32 (IZR err) <= r32 (IZR T))%R as Heb.
  { rewrite <- rne_opp, <- opp_IZR. split; apply rne_mono; try apply p32; apply IZR_le; lia. }
  assert (-1 <= r32 (IZR err) / r32 (IZR T) <= 1)%R as Hq.
  { assert (0 < / r32 (IZR T))%R as Hi by (apply Rinv_0_lt_compat; lra). assert (r32 (IZR T) * / r32 (IZR T) = 1)%R as E1 by (field; lra).
    unfold Rdiv. split.
    - replace (-1)%R with (- r32 (IZR T) * / r32 (IZR T))%R by (rewrite Ropp_mult_distr_l_reverse, E1; lra). apply Rmult_le_compat_r; lra.
    - rewrite <- E1. apply Rmult_le_compat_r; lra. }
  destruct (div32 _ _ Fe Ft) as [Fd Vd]; [rewrite Vt; lra|rewrite Ve, Vt; apply Rabs_le; lra|]. rewrite Ve, Vt in Vd.
  split; [done|]. rewrite Vd. split.
  { assert (fmt32 1) as H1 by (apply (fmt32_int 1); lia). split; [|apply r32_le; [done|lra]]. apply r32_ge; [|lra]. by apply (fmt_opp 24 128 1). }
  destruct (r32_err (r32 (IZR err) / r32 (IZR T))) as (e4 & t4 & He4 & Ht4 & ->).
  assert (exists c, (Rabs c <= / 4194304)%R /\ r32 (IZR err) / r32 (IZR T) = IZR err / IZR T * (1 + c))%R as (c & Hc & Ec).
  { destruct (Z.eq_dec err 0) as [->|Hnz].
    - exists 0%R. rewrite Rabs_R0. split; [lra|]. rewrite rne_0. unfold Rdiv. ring.
    - destruct (r32_rel (IZR err)) as (e3 & He3 & E3).
      { rewrite <- abs_IZR. eapply Rle_trans; [apply bpow_m100|]. assert (1 <= IZR (Z.abs err))%R by (apply IZR_le; lia). lra. }
      destruct (r32_nat_rel T) as (e1 & He1 & E1); [lia|].
      destruct (eps_inv e1 He1) as (e1' & He1' & Ei). destruct (eps_mul e3 e1' _ _ He3 He1') as (c & Ec & Hc); [lra|lra|].
      exists c. split; [lra|]. rewrite E3, E1, <- Ec, <- Ei. apply Rabs_le_inv in He1. field. split; lra. }
  rewrite Ec in *. set (r := (IZR err / IZR T)%R) in *.
  assert (-1 <= r <= 1)%R as Hr.
  { assert (0 < / IZR T)%R as Hi by (apply Rinv_0_lt_compat; lra). assert (IZR T * / IZR T = 1)%R as E1 by (field; lra).
    assert (- IZR T <= IZR err <= IZR T)%R by (rewrite <- opp_IZR; split; apply IZR_le; lia).
    unfold r, Rdiv. split.
    - replace (-1)%R with (- IZR T * / IZR T)%R by (rewrite Ropp_mult_distr_l_reverse, E1; lra). apply Rmult_le_compat_r; lra.
    - rewrite <- E1. apply Rmult_le_compat_r; lra. }
  assert (bpow radix2 (-150) <= / 1000000000000)%R as Hb150.
  { rewrite bpow_m150. pose proof bpow_m50. pose proof bpow_m100. pose proof (bpow_gt_0 radix2 (-50)). pose proof (bpow_gt_0 radix2 (-100)).
    apply Rle_trans with (1 * bpow radix2 (-50))%R; [apply Rmult_le_compat_r; lra|lra]. }
  assert (Rabs (r * (1 + c)) <= 1)%R as Hb by (apply Rabs_le; lra).
  pose proof (mul_bd _ _ _ _ Hb He4) as M4. assert (Rabs r <= 1)%R as Hra by (apply Rabs_le; lra).
  pose proof (mul_bd _ _ _ _ Hra Hc) as Mc. apply Rabs_le_inv in Ht4. apply Rabs_le. lra.
Qed.

(** ** The loss functions *)
Definition mae (x : float32) : float32 := f32_abs x.
Definition mse (x : float32) : float32 := f32_mul x x.
Definition berhu (C1 x : float32) : float32 := if f_le (f32_abs x) C1 then f32_abs x else f32_sub (f32_mul x x) (f32_add (f32_mul C1 C1) C1).
Definition l12 (C1 x : float32) : float32 := f32_add (f32_mul C1 (f32_abs x)) (f32_mul (f32_mul (f32_sub f32_one C1) x) x).
Lemma make_loss_cases name C1 loss : make_loss_fn name C1 = Ret loss ->
  (name = "MAE" \/ name = "L1")%string /\ (forall x, loss x = mae x) \/
  (name = "MSE" \/ name = "L2")%string /\ (forall x, loss x = mse x) \/
  (name = "berHu")%string /\ (forall x, loss x = berhu C1 x) \/
  (name = "L1+2")%string /\ (forall x, loss x = l12 C1 x).
Proof.
  unfold make_loss_fn. intros H.
  destruct (String.eqb_spec name "MAE"); cbn [orb] in H; [left; split; [by left|by injection H as <-]|].
  destruct (String.eqb_spec name "L1"); cbn [orb] in H; [left; split; [by right|by injection H as <-]|].
  destruct (String.eqb_spec name "MSE"); cbn [orb] in H; [right; left; split; [by left|by injection H as <-]|].
  destruct (String.eqb_spec name "L2"); cbn [orb] in H; [right; left; split; [by right|by injection H as <-]|].
  destruct (String.eqb_spec name "berHu"); [right; right; left; split; [done|by injection H as <-]|].
  destruct (String.eqb_spec name "L1+2"); [right; right; right; split; [done|by injection H as <-]|done].
Qed.
Lemma mae_spec x : fin32 x -> fin32 (mae x) /\ val (mae x) = Rabs (val x).
Proof. apply abs_spec. Qed.
Lemma mse_spec x : fin32 x -> (Rabs (val x) <= 1)%R -> fin32 (mse x) /\ val (mse x) = r32 (val x * val x) /\ (0 <= val x * val x <= 1)%R.
Proof.
  intros Hx H. assert (0 <= val x * val x <= 1)%R as Hb.
  { split; [apply Rle_0_sqr|]. destruct (mul_bd _ _ _ _ H H) as [_ Hm]. lra. }
  destruct (mul32 x x Hx Hx) as [F V]; [rewrite Rabs_pos_eq; lra|]. done.
Qed.

(** a loss function as the library needs it: for a relative error within [-1, 1] a probability, which does not depend on the sign
    of the error, grows with its size and is 0 when there is no error *)
Record loss_fine (loss : float32 -> float32) : Prop := {
  lf_fin : forall x, fin32 x -> (Rabs (val x) <= 1)%R -> fin32 (loss x) /\ (0 <= val (loss x) <= 1)%R;
  lf_mono : forall x y, fin32 x -> fin32 y -> (Rabs (val x) <= Rabs (val y) <= 1)%R -> (val (loss x) <= val (loss y))%R;
  lf_zero : forall x, fin32 x -> val x = 0%R -> val (loss x) = 0%R }.
Lemma lf_even loss x y : loss_fine loss -> fin32 x -> fin32 y -> (Rabs (val x) <= 1)%R -> val y = (- val x)%R -> val (loss y) = val (loss x).
Proof.
  intros H Hx Hy Hb E. assert (Rabs (val y) = Rabs (val x)) as Ea by (rewrite E; apply Rabs_Ropp).
  apply Rle_antisym; apply (lf_mono _ H); auto; lra.
Qed.
Lemma mae_fine : loss_fine mae.
Proof.
  constructor.
  - intros x Hx Hb. destruct (mae_spec x Hx) as [F ->]. split; [done|]. split; [apply Rabs_pos|done].
  - intros x y Hx Hy [H1 H2]. by rewrite (proj2 (mae_spec x Hx)), (proj2 (mae_spec y Hy)).
  - intros x Hx E. rewrite (proj2 (mae_spec x Hx)), E. apply Rabs_R0.
Qed.
Lemma sq_abs r : (r * r = Rabs r * Rabs r)%R.
Proof. change (Rsqr r = Rsqr (Rabs r)). apply Rsqr_abs. Qed.
Lemma mse_fine : loss_fine mse.
Proof.
  constructor.
  - intros x Hx Hb. destruct (mse_spec x Hx Hb) as (F & -> & Hr). split; [done|]. by apply r32_01.
  - intros x y Hx Hy [H1 H2]. destruct (mse_spec x Hx) as (_ & -> & _); [lra|]. destruct (mse_spec y Hy) as (_ & -> & _); [lra|].
    apply rne_mono; [apply p32|]. rewrite (sq_abs (val x)), (sq_abs (val y)). pose proof (Rabs_pos (val x)). apply Rmult_le_compat; lra.
  - intros x Hx E. destruct (mse_spec x Hx) as (_ & -> & _); [rewrite E, Rabs_R0; lra|]. rewrite E, Rmult_0_l. apply rne_0.
Qed.
Lemma r32_1_plus : (r32 (1 + / 16777216) = 1)%R.
Proof.
  destruct one32 as [F1 V1]. assert (fin32 (S754_finite false 8388608 (-47)) /\ val (S754_finite false 8388608 (-47)) = (/ 16777216)%R) as [F2 V2].
  { split; [by split|]. unfold val, SF2R, F2R. simpl. lra. }
  destruct (add32 _ _ F1 F2) as [_ V]; [rewrite V1, V2, Rabs_pos_eq; lra|]. rewrite V1, V2 in V. rewrite <- V.
  replace (f32_add f32_one (S754_finite false 8388608 (-47))) with f32_one by reflexivity. exact V1.
Qed.
Lemma l12_spec C1 x : fin32 C1 -> (0 <= val C1 <= 1)%R -> fin32 x -> (Rabs (val x) <= 1)%R ->
  fin32 (l12 C1 x) /\ val (l12 C1 x) = r32 (r32 (val C1 * Rabs (val x)) + r32 (r32 (r32 (1 - val C1) * Rabs (val x)) * Rabs (val x))) /\ (0 <= val (l12 C1 x) <= 1)%R.
Proof.
  intros HC HC1 Hx Hb. unfold l12. destruct one32 as [F1 V1]. destruct (abs_spec 24 128 x Hx) as [Fa Va]. fold f32_abs in Fa, Va. 
  pose proof (Rabs_pos (val x)) as Hp. set (a := Rabs (val x)) in *.
  assert (0 <= val C1 * a <= val C1)%R as Hca. { split; [apply Rmult_le_pos; lra|]. rewrite <- (Rmult_1_r (val C1)) at 2. apply Rmult_le_compat_l; lra. }
  destruct (mul32 C1 (f32_abs x) HC Fa) as [Fm Vm]; [rewrite Va, Rabs_pos_eq; lra|]. rewrite Va in Vm.
  assert (0 <= r32 (val C1 * a) <= val C1)%R as Hm. { split; [apply r32_ge; [apply fmt_0|lra]|]. apply r32_le; [by apply fin_fmt|lra]. }
  destruct (sub32 _ _ F1 HC) as [Fs Vs]; [rewrite V1, Rabs_pos_eq; lra|]. rewrite V1 in Vs.
  set (c := r32 (1 - val C1)) in *. assert (0 <= c <= 1)%R as Hc by (apply r32_01; lra).
  assert (fmt32 c) as Fc by apply fmt32_r.
  (* the quadratic part, on the real numbers *)
  assert (forall b, Rabs b = a -> r32 (r32 (c * b) * b) = r32 (r32 (c * a) * a) /\ (Rabs (c * b) <= 1)%R /\ (Rabs (r32 (c * b) * b) <= 1)%R) as Hqb.
  { intros b Eb. assert (0 <= c * a <= c)%R as Hca'. { split; [apply Rmult_le_pos; lra|]. rewrite <- (Rmult_1_r c) at 2. apply Rmult_le_compat_l; lra. }
    assert (0 <= r32 (c * a) <= c)%R as Hr. { split; [apply r32_ge; [apply fmt_0|lra]|]. apply r32_le; [done|lra]. }
    assert (0 <= r32 (c * a) * a <= 1)%R as Hr2. { split; [apply Rmult_le_pos; lra|]. rewrite <- (Rmult_1_r 1). apply Rmult_le_compat; lra. }
    destruct (Rcase_abs b) as [Hlt|Hge].
    - rewrite (Rabs_left b Hlt) in Eb. replace b with (- a)%R by lra. rewrite (Ropp_mult_distr_r_reverse c a), rne_opp.
      rewrite Rmult_opp_opp. split; [done|]. rewrite Rabs_Ropp, !Rabs_pos_eq by lra. lra.
    - rewrite (Rabs_right b Hge) in Eb. subst b. split; [done|]. rewrite !Rabs_pos_eq by lra. lra. }
  destruct (Hqb (val x) eq_refl) as (Eq & Hq1 & Hq2).
  destruct (mul32 _ _ Fs Hx) as [Fp Vp]; [rewrite Vs; lra|]. rewrite Vs in Vp.
  destruct (mul32 _ _ Fp Hx) as [Fq Vq]; [rewrite Vp; lra|]. rewrite Vp, Eq in Vq.
  assert (0 <= r32 (r32 (c * a) * a) <= c)%R as Hquad.
  { assert (0 <= c * a <= c)%R as Hca'. { split; [apply Rmult_le_pos; lra|]. rewrite <- (Rmult_1_r c) at 2. apply Rmult_le_compat_l; lra. }
    assert (0 <= r32 (c * a) <= c)%R as Hr. { split; [apply r32_ge; [apply fmt_0|lra]|]. apply r32_le; [done|lra]. }
    assert (0 <= r32 (c * a) * a <= c)%R as Hr2. { split; [apply Rmult_le_pos; lra|]. rewrite <- (Rmult_1_r c) at 2. apply Rmult_le_compat; lra. }
    split; [apply r32_ge; [apply fmt_0|lra]|]. apply r32_le; [done|lra]. }
  destruct (add32 _ _ Fm Fq) as [Fr Vr]; [rewrite Vm, Vq, Rabs_pos_eq; lra|]. rewrite Vm, Vq in Vr.
  split; [done|]. split; [done|]. rewrite Vr. split; [apply r32_ge; [apply fmt_0|lra]|].
  rewrite <- r32_1_plus. apply rne_mono; [apply p32|].
  assert (c <= 1 - val C1 + / 16777216)%R; [|lra]. unfold c.
  destruct (Req_dec (val C1) 1) as [E1|Hn1].
  { rewrite E1, Rminus_diag_eq, rne_0 by done. lra. }
  destruct (Rle_dec (bpow radix2 (-100)) (1 - val C1)) as [Hbig|Hsmall].
  - destruct (r32_rel (1 - val C1)) as (e & He & ->); [rewrite Rabs_pos_eq; lra|].
    assert (Rabs (1 - val C1) <= 1)%R as Hx1 by (rewrite Rabs_pos_eq; lra). pose proof (mul_bd _ _ _ _ Hx1 He). lra.
  - apply Rle_trans with (bpow radix2 (-100)).
    + apply r32_le; [apply fmt_bpow; [apply p32|lia]|lra].
    + pose proof bpow_m100. lra.
Qed.
Lemma l12_fine C1 : fin32 C1 -> (0 <= val C1 <= 1)%R -> loss_fine (l12 C1).
Proof.
  intros HC HC1. constructor.
  - intros x Hx Hb. destruct (l12_spec C1 x HC HC1 Hx Hb) as (F & _ & H). done.
  - intros x y Hx Hy [H1 H2]. destruct (l12_spec C1 x HC HC1 Hx) as (_ & -> & _); [lra|]. destruct (l12_spec C1 y HC HC1 Hy) as (_ & -> & _); [lra|].
    pose proof (Rabs_pos (val x)). set (c := r32 (1 - val C1)). assert (0 <= c)%R by (apply r32_01; lra).
    assert (0 <= r32 (c * Rabs (val x)) <= r32 (c * Rabs (val y)))%R.
    { split; [apply r32_ge; [apply fmt_0|apply Rmult_le_pos; lra]|]. apply rne_mono; [apply p32|]. apply Rmult_le_compat_l; lra. }
    apply rne_mono; [apply p32|]. apply Rplus_le_compat; apply rne_mono; try apply p32; apply Rmult_le_compat; lra.
  - intros x Hx E. destruct (l12_spec C1 x HC HC1 Hx) as (_ & -> & _); [rewrite E, Rabs_R0; lra|].
    rewrite E, Rabs_R0, !Rmult_0_r, !rne_0, Rplus_0_r, rne_0. done.
Qed.

(** ** Number of feedbacks *)
Definition tame (P : float32) : Prop := (fin32 P /\ (val P <= 2)%R) \/ P = S754_nan \/ P = S754_infinity true.
Lemma fine_tame loss x : loss_fine loss -> fin32 x -> (Rabs (val x) <= 1)%R -> tame (loss x).
Proof. intros H Hx Hb. destruct (lf_fin _ H x Hx Hb). left. split; [done|lra]. Qed.
Lemma ge_half_fin x : fin32 x -> f_ge (f64_of_f32 x) f64_half = true <-> (/ 2 <= val x)%R.
Proof.
  intros Hx. destruct (f64_of_f32_spec x Hx) as [F V].
  assert (fin64 f64_half /\ val f64_half = (/ 2)%R) as [Fh Vh]. { split; [by split|]. unfold val, f64_half, SF2R, F2R. simpl. lra. }
  unfold f_ge. rewrite (leb_spec 53 1024 _ _ Fh F), V, Vh. done.
Qed.
Lemma of_Z32_nonneg n : 0 <= n <= 1073741824 -> fin32 (f32_of_Z n) /\ sgn (f32_of_Z n) = false /\ (0 <= val (f32_of_Z n) <= 1073741824)%R.
Proof.
  intros Hn. destruct (of_Z32 n) as [F V]; [lia|]. split; [done|]. split.
  - destruct (Z.eq_dec n 0) as [->|Hnz]; [done|]. apply (sgn_pos 24 128 _ F). rewrite V. eapply Rlt_le_trans; [|apply r32_pos; lia]. lra.
  - rewrite V. split; [apply r32_ge; [apply fmt_0|apply IZR_le; lia]|]. apply r32_le; [apply (fmt32_pow 30); lia|]. apply IZR_le. lia.
Qed.
Lemma hits_no_ub {R} n P (g : eG R) : 0 <= n <= 1073741824 -> tame P -> exists h g', feedback_hits (R := R) false n P g = Ret (h, g') /\ 0 <= h <= n.
Proof.
  intros Hn Hp. destruct (of_Z32_nonneg n Hn) as (Fn & Sn & Bn). unfold feedback_hits. set (np := f32_mul (f32_of_Z n) P).
  assert ((fin32 np /\ (val np <= 2147483648)%R) \/ f_ge (f64_of_f32 np) f64_half = false) as H.
  { destruct Hp as [[Fp Bp]|[->| ->]].
    - destruct (mul_any 24 128 p32 m32 _ _ Fn Fp) as [[F V]|E].
      + left. split; [exact F|]. fold (f32_mul (f32_of_Z n) P) in V. fold np in V. rewrite V. apply rne_le; [apply p32|apply (fmt32_pow 31); lia|].
        destruct (Rle_dec 0 (val P)) as [H0|H0].
        * change (bpow radix2 31) with 2147483648%R. replace 2147483648%R with (1073741824 * 2)%R by lra. apply Rmult_le_compat; lra.
        * apply Rle_trans with 0%R; [|change (bpow radix2 31) with 2147483648%R; lra]. rewrite <- (Rmult_0_r (val (f32_of_Z n))). apply Rmult_le_compat_l; lra.
      + destruct (Rlt_dec (val P) 0) as [Hlt|Hge].
        * right. rewrite Sn, (sgn_neg 24 128 _ Fp Hlt) in E. subst np. unfold f32_mul. by rewrite E.
        * exfalso. destruct (mul32 _ _ Fn Fp) as [[_ F] _].
          { rewrite Rabs_pos_eq by (apply Rmult_le_pos; lra). replace 8589934592%R with (4294967296 * 2)%R by lra. apply Rmult_le_compat; lra. }
          unfold f32_mul in F. by rewrite E in F.
    - right. subst np. by destruct (f32_of_Z n).
    - right. subst np. unfold f32_mul. destruct (f32_of_Z n) as [s|s| |s m e]; cbn in Sn; try subst s; done. }
  destruct (f_ge (f64_of_f32 np) f64_half) eqn:Ege.
  - destruct H as [[Fx Bx]|H]; [|congruence]. apply ge_half_fin in Ege; [|done]. destruct (round32 np Fx) as [Fr Vr]; [lra|].
    assert (0 <= Zfloor (val np + / 2) <= 2147483648) as Hz.
    { split; [apply Zfloor_lub; lra|]. apply le_IZR.
      assert (Zfloor (val np + / 2) < 2147483649) as Hlt; [|apply IZR_le; lia]. apply lt_IZR. eapply Rle_lt_trans; [apply Zfloor_lb|]. lra. }
    assert (0 <= val (f32_round np) < 4294967296)%R as Hr by (rewrite Vr; split; [apply IZR_le|apply IZR_lt]; lia).
    rewrite (to_u32_spec 24 128 _ Fr Hr). cbn [obind]. eexists _, _. split; [reflexivity|]. lia.
  - destruct (g_next R g) as [r g']. cbn [obind]. eexists _, _. split; [reflexivity|]. lia.
Qed.

(** berHu never leaves the tame numbers, whatever its constant *)
Lemma berhu_tame C1 x : SpecFloat.valid_binary 24 128 C1 = true -> fin32 x -> (Rabs (val x) <= 1)%R -> tame (berhu C1 x).
Proof.
  intros HC Hx Hb. unfold berhu. destruct (mae_spec x Hx) as [Fa Va]. fold (mae x). destruct (f_le (mae x) C1).
  { left. split; [done|]. rewrite Va. lra. }
  destruct (mse_spec x Hx Hb) as (Fq & Vq & Hq). fold (mse x). assert (0 <= val (mse x) <= 1)%R as Bq by (rewrite Vq; by apply r32_01).
  assert (forall D, D = S754_nan \/ D = S754_infinity false \/ (fin32 D /\ (- / 2 <= val D)%R) -> tame (f32_sub (mse x) D)) as Main.
  { intros D [->|[->|[FD BD]]].
    - right; left. unfold f32_sub. by destruct (mse x).
    - right; right. unfold f32_sub. destruct Fq as [_ Fq]. by destruct (mse x).
    - destruct (sub_any 24 128 p32 m32 _ _ Fq FD) as [[F V]|[E1 E2]].
      + left. split; [exact F|]. unfold f32_sub. rewrite V. apply rne_le; [apply p32|apply (fmt32_pow 1); lia|]. change (bpow radix2 1) with 2%R. lra.
      + exfalso. destruct (Rle_dec (val D) 4294967296) as [Hle|Hgt].
        * destruct (sub32 _ _ Fq FD) as [[_ F] _]; [apply Rabs_le; lra|]. unfold f32_sub in F. by rewrite E1 in F.
        * rewrite (sgn_pos 24 128 _ FD) in E2 by lra. cbn in E2.
          (* x*x < 1 <= |D|: no overflow *)
          assert (in_range 24 128 (val (mse x) - val D)) as Hr.
          { apply (in_range_le 24 128 p32 _ (Rabs (val D))).
            - pose proof (fin_fmt 24 128 _ FD) as Hf. rewrite Rabs_pos_eq by lra. exact Hf.
            - rewrite Rabs_pos_eq by lra. pose proof (fin_range 24 128 _ FD) as Hf. by rewrite Rabs_pos_eq in Hf by lra.
            - rewrite (Rabs_pos_eq (val D)) by lra. apply Rabs_le. lra. }
          destruct (sub_spec 24 128 p32 m32 _ _ Fq FD Hr) as [[_ F] _]. by rewrite E1 in F. }
  apply Main. destruct C1 as [s|s| |s m e] eqn:EC.
  - right; right. assert (fin32 (S754_zero s)) as F0 by done.
    replace (f32_add (f32_mul (S754_zero s) (S754_zero s)) (S754_zero s)) with (S754_zero false) by (by destruct s).
    split; [done|]. unfold val, SF2R. lra.
  - destruct s; [by left|by right; left].
  - by left.
  - rewrite <- EC in *. assert (fin32 C1) as FC by (split; [done|by rewrite EC]). clear EC s m e.
    destruct (mul_any 24 128 p32 m32 _ _ FC FC) as [[F V]|E].
    + fold (f32_mul C1 C1) in F, V. set (c := val C1) in *.
      assert (0 <= r32 (c * c))%R as H0 by (apply r32_ge; [apply fmt_0|apply Rle_0_sqr]).
      assert (- / 2 <= r32 (c * c) + c)%R as Hlow.
      { destruct (Rle_dec (- / 2) c) as [|Hc]; [lra|]. destruct (Rle_dec c (-1)) as [Hc1|Hc1].
        - assert (- c <= r32 (c * c))%R; [|lra]. apply r32_ge; [apply fmt_opp; by apply fin_fmt|].
          replace (c * c)%R with (- c * - c)%R by ring. rewrite <- (Rmult_1_r (- c)) at 1. apply Rmult_le_compat_l; lra.
        - (* -1 < c < -1/2 *)
          destruct (r32_rel (c * c)) as (eps & He & ->).
          { rewrite Rabs_pos_eq by apply Rle_0_sqr. apply Rle_trans with (/ 4)%R; [pose proof bpow_m100; lra|]. nra. }
          assert (Rabs (c * c) <= 1)%R as Hcc by (rewrite Rabs_pos_eq by apply Rle_0_sqr; nra).
          pose proof (mul_bd _ _ _ _ Hcc He). nra. }
      destruct (add_any 24 128 p32 m32 _ _ F FC) as [[Fs Vs]|[E1 E2]].
      * right; right. split; [exact Fs|]. unfold f32_add. rewrite Vs, V. apply rne_ge; [apply p32| |exact Hlow].
        apply fmt_opp. replace (/ 2)%R with (bpow radix2 (-1)) by (simpl; lra). apply fmt_bpow; [apply p32|lia].
      * right; left. unfold f32_add. rewrite E1. f_equal.
        destruct (Req_dec (r32 (c * c)) 0) as [Ez|Hnz].
        -- exfalso. destruct (Rle_dec (Rabs c) 1) as [Hc|Hc].
           ++ destruct (add32 _ _ F FC) as [[_ Ff] _].
              { rewrite V, Ez. fold c. rewrite Rplus_0_l. lra. } unfold f32_add in Ff. by rewrite E1 in Ff.
           ++ assert (1 <= r32 (c * c))%R; [|lra]. apply r32_ge; [apply (fmt32_int 1); lia|]. rewrite sq_abs. nra.
        -- apply (sgn_pos 24 128 _ F). rewrite V. lra.
    + unfold f32_mul. rewrite E, xorb_nilpotent. right; left. unfold f32_add. destruct FC as [_ FC]. by destruct C1.
Qed.
(** the number of feedbacks is within one of clauses times probability *)
Lemma hits_close {R} n P (g : eG R) h g' : 0 <= n <= 1048576 -> fin32 P -> (0 <= val P <= 1)%R ->
  feedback_hits (R := R) false n P g = Ret (h, g') -> (Rabs (IZR h - IZR n * val P) <= 1)%R.
Proof.
  intros Hn Fp Hp. destruct (of_Z32_small n) as [Fn Vn]; [lia|]. unfold feedback_hits. set (np := f32_mul (f32_of_Z n) P).
  assert (0 <= IZR n <= 1048576)%R as Hnr by (split; apply IZR_le; lia).
  assert (0 <= IZR n * val P <= IZR n)%R as Hm.
  { split; [apply Rmult_le_pos; lra|]. rewrite <- (Rmult_1_r (IZR n)) at 2. apply Rmult_le_compat_l; lra. }
  destruct (mul32 _ _ Fn Fp) as [Fx Vx]; [rewrite Vn, Rabs_pos_eq; lra|]. fold np in Fx, Vx. rewrite Vn in Vx.
  assert (0 <= val np)%R as H0 by (rewrite Vx; apply r32_ge; [apply fmt_0|lra]).
  assert (Rabs (val np - IZR n * val P) <= / 8)%R as Hd.
  { rewrite Vx. destruct (r32_err (IZR n * val P)) as (e & t & He & Ht & ->). assert (Rabs (IZR n * val P) <= 1048576)%R as Ha by (rewrite Rabs_pos_eq; lra).
    pose proof (mul_bd _ _ _ _ Ha He). assert (bpow radix2 (-150) <= / 1000000000)%R as Hb.
    { apply Rle_trans with (bpow radix2 (-100)); [apply bpow_le; lia|apply bpow_m100]. }
    apply Rabs_le_inv in Ht. apply Rabs_le. lra. }
  apply Rabs_le_inv in Hd. destruct (f_ge (f64_of_f32 np) f64_half) eqn:Ege.
  - apply ge_half_fin in Ege; [|done]. destruct (round32 np Fx) as [Fr Vr]; [lra|].
    pose proof (Zfloor_lb (val np + / 2)) as L1. pose proof (Zfloor_ub (val np + / 2)) as L2. set (z := Zfloor (val np + / 2)) in *.
    assert (0 <= val (f32_round np) < 4294967296)%R as Hr.
    { rewrite Vr. split; [|lra]. apply IZR_le. subst z. apply Zfloor_lub. lra. }
    rewrite (to_u32_spec 24 128 _ Fr Hr), Vr, Zfloor_IZR. cbn [obind]. intros [= <- _].
    assert (0 <= z) as Hz by (subst z; apply Zfloor_lub; lra). rewrite Z.max_r by lia. apply Rabs_le. destruct (Z.min_spec z n) as [[Hc ->]|[Hc ->]].
    + lra.
    + apply IZR_le in Hc. lra.
  - assert (val np < / 2)%R as Hlt. { apply Rnot_le_lt. intros Hc. apply ge_half_fin in Hc; [congruence|done]. }
    destruct (g_next R g) as [r g2]. cbn [obind]. intros [= <- _]. set (b := f_lt _ _). 
    assert (b2z b = 0 \/ b2z b = 1) as Hb by (destruct b; cbn; auto). apply Rabs_le.
    assert (0 <= Z.max 0 (Z.min (b2z b) n) <= 1) as Hh by (destruct Hb as [->| ->]; lia). destruct Hh as [Hh1 Hh2]. apply IZR_le in Hh1, Hh2. lra.
Qed.
