(** * Real numbers of a JSON document: rounded to the nearest float (C33). *)
From stdpp Require Import tactics.
From Verif Require Import Base Floats FloatBase FloatFacts Json.
From Coq Require Import ZArith Reals Psatz.
From Flocq Require Import Core.Core.
From Flocq Require Import Relative BinarySingleNaN.
Local Open Scope Z_scope.

(** specification: the float nearest to r, ties to even; binary32 has 24 bits of precision and smallest exponent -149.
    Numbers that round to 2^128 or more become infinite; the sign is kept *)
Definition nearest_float (r : R) (negative : bool) (y : float32) : Prop :=
  let q := round radix2 (FLT_exp (-149) 24) ZnearestE r in
  ((Rabs q < bpow radix2 128)%R -> is_finite_sf y = true /\ SpecFloat.valid_binary 24 128 y = true /\ SF2R radix2 y = q) /\
  ((bpow radix2 128 <= Rabs q)%R -> y = S754_infinity negative) /\
  sign_SF y = negative.

Lemma round_flt r : round radix2 (FLT_exp (-149) 24) ZnearestE r = r32 r.
Proof. reflexivity. Qed.

Lemma normalize_nearest m e sz r : F2R (Float radix2 m e) = r -> (r = 0%R -> m = 0) ->
  nearest_float r (if Z.eqb m 0 then sz else Z.ltb m 0) (SpecFloat.binary_normalize 24 128 m e sz).
Proof.
  intros Er H0. unfold nearest_float. rewrite round_flt. cbv zeta. rewrite (normalize_equiv 24 128 p32 m32).
  pose proof (binary_normalize_correct 24 128 p32 m32 mode_NE m e sz) as H. cbv zeta in H. rewrite Er in H.
  change (round radix2 (SpecFloat.fexp 24 128) (round_mode mode_NE) r) with (r32 r) in H.
  assert (Rlt_bool r 0 = Z.ltb m 0) as Es.
  { rewrite <- Er. destruct (Z.ltb_spec m 0) as [Hm|Hm].
    - apply Rlt_bool_true. by apply F2R_lt_0.
    - apply Rlt_bool_false. by apply F2R_ge_0. }
  destruct (Rlt_bool_spec (Rabs (r32 r)) (bpow radix2 128)) as [Hr|Hr].
  - destruct H as (H1 & H2 & H3). destruct (fin_B2SF 24 128 _ H2) as [[Hv Hf] Ev]. split_and!.
    + intros _. split_and!; [done|done|]. exact (eq_trans Ev H1).
    + intros Hge. exfalso. apply (Rlt_irrefl (Rabs (r32 r))). eapply Rlt_le_trans; [exact Hr|exact Hge].
    + assert (forall b : binary_float 24 128, is_finite b = true -> sign_SF (B2SF b) = Bsign b) as Hs by (intros b Hb; destruct b; done).
      rewrite Hs by exact H2. rewrite H3. rewrite <- Er. rewrite <- (F2R_0 radix2 e). rewrite Rcompare_F2R. destruct (Z.compare_spec m 0); destruct (Z.eqb_spec m 0); destruct (Z.ltb_spec m 0); lia || done.
  - assert (m <> 0) as Hm.
    { intros ->. rewrite F2R_0 in Er. rewrite <- Er in Hr. rewrite (rne_0 24 128), Rabs_R0 in Hr.
      apply (Rlt_irrefl 0). eapply Rlt_le_trans; [apply (bpow_gt_0 radix2 128)|exact Hr]. }
    destruct (Z.eqb_spec m 0) as [?|_]; [done|].
    assert (B2SF (binary_normalize 24 128 p32 m32 mode_NE m e sz) = S754_infinity (Z.ltb m 0)) as ->.
    { rewrite H. unfold binary_overflow, overflow_to_inf. by rewrite Es. }
    split_and!; [|done|done]. intros Hlt. exfalso. apply (Rlt_irrefl (Rabs (r32 r))). eapply Rlt_le_trans; [exact Hlt|exact Hr].
Qed.

Lemma real_nearest x : is_finite_sf x = true -> nearest_float (SF2R radix2 x) (sign_SF x) (f32_of_f64 x).
Proof.
  intros Hx. destruct x as [s|s| |s m e]; try discriminate Hx.
  - cbn [f32_of_f64 SF2R sign_SF]. unfold nearest_float. rewrite round_flt. cbv zeta. rewrite (rne_0 24 128), Rabs_R0. split_and!; [done| |done].
    intros H. exfalso. apply (Rlt_irrefl 0). eapply Rlt_le_trans; [apply (bpow_gt_0 radix2 128)|exact H].
  - cbn [f32_of_f64 sign_SF].
    assert (F2R (Float radix2 (Floats.cond_neg s (Zpos m)) e) = SF2R radix2 (S754_finite s m e)) as E by (cbn; by destruct s).
    assert (Floats.cond_neg s (Zpos m) <> 0) as Hm by (by destruct s).
    pose proof (normalize_nearest (Floats.cond_neg s (Zpos m)) e s _ E) as H.
    destruct (Z.eqb_spec (Floats.cond_neg s (Zpos m)) 0) as [?|_]; [done|].
    assert ((Floats.cond_neg s (Zpos m) <? 0) = s) as Es by (by destruct s). rewrite Es in H. apply H.
    intros H0. exfalso. rewrite <- E in H0. apply eq_0_F2R in H0. done.
Qed.
Lemma integer_nearest z : nearest_float (IZR z) (z <? 0) (f32_of_Z z).
Proof.
  unfold f32_of_Z. assert (F2R (Float radix2 z 0) = IZR z) as E by (unfold F2R; cbn; apply Rmult_1_r).
  pose proof (normalize_nearest z 0 false _ E) as H. destruct (Z.eqb_spec z 0) as [->|Hz].
  - apply H. done.
  - apply H. intros Hz0. by apply eq_IZR in Hz0.
Qed.
