(** * strtod of JsonText.v is correctly rounded: the double it computes is the one nearest to the decimal number. *)
From stdpp Require Import tactics list.
From Verif Require Import Base Floats JsonText.
From Verif Require Import FloatBase JsonGrammar.
From Coq Require Import ZArith Reals Psatz.
From Flocq Require Import Core.Core.
From Flocq Require Import BinarySingleNaN.
From stdpp Require Import list.
Local Open Scope Z_scope.

Local Instance prec53 : Prec_gt_0 53 := eq_refl.
Local Instance emax1024 : Prec_lt_emax 53 1024 := eq_refl.
Notation rnd64 := (round radix2 (SpecFloat.fexp 53 1024) ZnearestE).

Lemma nearest_fin neg r x : nearest_double neg r x -> fin 53 1024 x.
Proof. by intros (V & F & _). Qed.
Lemma nearest_unique neg r x y : nearest_double neg r x -> nearest_double neg r y -> x = y.
Proof.
  intros X Y. pose proof (nearest_fin _ _ _ X) as FX. pose proof (nearest_fin _ _ _ Y) as FY.
  destruct X as (_ & _ & EX & SX), Y as (_ & _ & EY & SY).
  destruct (Req_dec (val x) 0) as [Z|NZ].
  - destruct (val_zero 53 1024 x FX Z) as [s ->]. rewrite <- EX, Z in EY. clear EX.
    destruct (val_zero 53 1024 y FY EY) as [s' ->]. congruence.
  - apply (val_inj 53 1024); try done. congruence.
Qed.
Lemma nearest_range neg r x : nearest_double neg r x -> (Rabs (rnd64 r) < bpow radix2 1024)%R.
Proof.
  intros X. pose proof (fin_range 53 1024 x (nearest_fin _ _ _ X)) as H. destruct X as (_ & _ & E & _). by rewrite <- E.
Qed.

Definition signed (neg : bool) (r : R) : R := ((if neg then - 1 else 1) * r)%R.
Definition dec_value (neg : bool) (m e : Z) : R := ((if neg then - 1 else 1) * IZR m * pow10 e)%R.

Lemma pow10_nonneg e : 0 <= e -> pow10 e = IZR (10 ^ e).
Proof. intros H. unfold pow10. by rewrite <- IZR_Zpower by done. Qed.
Lemma pow10_neg e : e < 0 -> pow10 e = (/ IZR (10 ^ (- e)))%R.
Proof.
  intros H. unfold pow10. replace e with (- (- e)) at 1 by lia. rewrite bpow_opp. f_equal. by rewrite <- IZR_Zpower by lia.
Qed.
Lemma pow10_pos e : (0 < pow10 e)%R.
Proof. apply bpow_gt_0. Qed.

Lemma f64_of_dec_spec neg m e : 0 <= m -> let x := f64_of_dec neg m e in
  nearest_double neg (dec_value neg m e) x \/ (is_finite_sf x = false /\ forall y, ~ nearest_double neg (dec_value neg m e) y).
Proof.
  intros Hm x. subst x. destruct m as [|p|p]; [| |lia].
  { left. cbn [f64_of_dec]. unfold nearest_double, dec_value. repeat split; cbn; try done.
    rewrite Rmult_0_r, Rmult_0_l, round_0 by typeclasses eauto. done. }
  cbn [f64_of_dec]. destruct (Z.leb_spec 0 e).
  - (* integer *)
    rewrite (normalize_equiv 53 1024 prec53 emax1024).
    pose proof (binary_normalize_correct 53 1024 prec53 emax1024 mode_NE (Floats.cond_neg neg (Zpos p * 10 ^ e)) 0 neg) as C.
    cbv zeta in C. set (z := binary_normalize 53 1024 prec53 emax1024 mode_NE _ 0 neg) in *.
    assert (F2R (beta := radix2) {| Fnum := Floats.cond_neg neg (Zpos p * 10 ^ e); Fexp := 0 |} = dec_value neg (Zpos p) e) as EV.
    { unfold dec_value. rewrite pow10_nonneg by done. unfold F2R; cbn [Fnum Fexp bpow]. rewrite Rmult_1_r.
      destruct neg; cbn [Floats.cond_neg]; rewrite ?opp_IZR, mult_IZR; lra. }
    rewrite EV in C. change (round_mode mode_NE) with ZnearestE in C.
    destruct (Rlt_bool_spec (Rabs (rnd64 (dec_value neg (Z.pos p) e))) (bpow radix2 1024)) as [L|G].
    + destruct C as (CV & CF & CS). left. destruct (fin_B2SF 53 1024 z CF) as [[FV FF] Ev].
      split; [done|]. split; [done|]. split; [by rewrite Ev, CV|].
      pose proof (sgn_B2SF 53 1024 z) as SB. rewrite SB in CS. clear SB.
      assert (sgn (B2SF z) = neg) as SG.
      { rewrite CS. unfold dec_value. pose proof (pow10_pos e). assert (0 < IZR (Zpos p))%R by (apply IZR_lt; lia).
        assert (0 < IZR (Zpos p) * pow10 e)%R by (by apply Rmult_lt_0_compat).
        destruct neg; [rewrite Rcompare_Lt|rewrite Rcompare_Gt]; try done; lra. }
      clear - FF SG. by destruct (B2SF z).
    + right. rewrite C. split.
      * by destruct (Rlt_bool _ _).
      * intros y Y. apply nearest_range in Y. lra.
  - (* quotient *)
    assert (0 < 10 ^ (- e)) as Hq by (apply Z.pow_pos_nonneg; lia).
    destruct (10 ^ (- e)) as [|q|q] eqn:Eq; try lia.
    pose proof (Bdiv_correct_aux 53 1024 prec53 emax1024 mode_NE neg p 0 false q 0) as C. cbv zeta in C.
    rewrite xorb_false_r in C.
    destruct (SpecFloat.SFdiv_core_binary 53 1024 (Z.pos p) 0 (Z.pos q) 0) as [[mz ez] lz].
    rewrite (aux_equiv 53 1024).
    set (z := binary_round_aux 53 1024 mode_NE neg mz ez lz) in *. destruct C as [CV C].
    match type of C with context [Rdiv ?a ?b] => assert (Rdiv a b = dec_value neg (Zpos p) e) as EV end.
    { unfold dec_value. rewrite pow10_neg by done. rewrite Eq. unfold F2R; cbn [Fnum Fexp bpow SpecFloat.cond_Zopp]. rewrite !Rmult_1_r.
      unfold Rdiv. f_equal. destruct neg; cbn [SpecFloat.cond_Zopp]; [rewrite opp_IZR|]; lra. }
    rewrite EV in C. change (round_mode mode_NE) with ZnearestE in C.
    destruct (Rlt_bool_spec (Rabs (rnd64 (dec_value neg (Z.pos p) e))) (bpow radix2 1024)) as [L|G].
    + destruct C as (CR & CF & CS). left. split; [done|]. destruct z; try done; cbn in CS; subst; repeat split; try done.
    + right. split; [by rewrite C|]. intros y Y. apply nearest_range in Y. lra.
Qed.

Lemma f64_of_dec_finite neg m e : 0 <= m -> is_finite_sf (f64_of_dec neg m e) = true -> nearest_double neg (dec_value neg m e) (f64_of_dec neg m e).
Proof. intros Hm F. destruct (f64_of_dec_spec neg m e Hm) as [H|[H _]]; congruence. Qed.
Lemma f64_of_dec_nearest neg m e x : 0 <= m -> nearest_double neg (dec_value neg m e) x -> f64_of_dec neg m e = x.
Proof.
  intros Hm X. destruct (f64_of_dec_spec neg m e Hm) as [H|[_ H]]; [by eapply nearest_unique|]. by destruct (H x).
Qed.
