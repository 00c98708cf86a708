(** * Real-number reading of the floating point operations of Floats.v, by way of Flocq (which proves them correctly rounded). *)
From stdpp Require Import tactics.
From Verif Require Import Base Floats.
From Coq Require Import ZArith Reals Psatz.
From Flocq Require Import Core.Core Core.Digits.
From Flocq Require Import Relative BinarySingleNaN.
Local Open Scope Z_scope.

(** value of a finite float *)
Definition val (x : spec_float) : R := SF2R radix2 x.

Section Fmt.
  Context (prec emax : Z) (Hp : Prec_gt_0 prec) (Hm : Prec_lt_emax prec emax).
  Notation fexp := (SpecFloat.fexp prec emax).
  Notation bf := (binary_float prec emax).
  (** rounding to nearest, ties to even *)
  Definition rne (r : R) : R := round radix2 fexp ZnearestE r.
  Definition fmt (r : R) : Prop := generic_format radix2 fexp r.
  (** a finite number of the format *)
  Definition fin (x : spec_float) : Prop := SpecFloat.valid_binary prec emax x = true /\ is_finite_sf x = true.
  Definition in_range (r : R) : Prop := (Rabs (rne r) < bpow radix2 emax)%R.

  Lemma aux_equiv sx mx ex lx : SpecFloat.binary_round_aux prec emax sx mx ex lx = binary_round_aux prec emax mode_NE sx mx ex lx.
  Proof.
    unfold SpecFloat.binary_round_aux, binary_round_aux. set (mrse' := shr_fexp _ _ _). case mrse'; intros mrs' e'; simpl.
    assert (forall m l, round_nearest_even m l = choice_mode mode_NE sx m l) as ->.
    { intros m l. case l; [reflexivity|intro c]. case c; [|reflexivity..]. now simpl; unfold Round.cond_incr; case Z.even. }
    reflexivity.
  Qed.
  Lemma round_equiv s m e : SpecFloat.binary_round prec emax s m e = binary_round prec emax mode_NE s m e.
  Proof. unfold SpecFloat.binary_round, binary_round, shl_align_fexp. set (mez := shl_align _ _ _); case mez as [mz ez]. apply aux_equiv. Qed.
  Lemma normalize_equiv m e sz : SpecFloat.binary_normalize prec emax m e sz = B2SF (binary_normalize prec emax Hp Hm mode_NE m e sz).
  Proof. case m as [|p|p]; simpl; [reflexivity|rewrite B2SF_SF2B; apply round_equiv|rewrite B2SF_SF2B; apply round_equiv]. Qed.
  Lemma mul_equiv (x y : bf) : SFmul prec emax (B2SF x) (B2SF y) = B2SF (Bmult mode_NE x y).
  Proof. destruct x, y; try reflexivity. simpl. rewrite B2SF_SF2B. apply aux_equiv. Qed.
  Lemma add_equiv (x y : bf) : SFadd prec emax (B2SF x) (B2SF y) = B2SF (Bplus mode_NE x y).
  Proof. destruct x, y; try (simpl; case Bool.eqb; reflexivity); try reflexivity. simpl. apply normalize_equiv. Qed.
  Lemma sub_equiv (x y : bf) : SFsub prec emax (B2SF x) (B2SF y) = B2SF (Bminus mode_NE x y).
  Proof.
    destruct x, y; try (simpl; case Bool.eqb; reflexivity); try reflexivity. simpl. unfold Zminus. rewrite <- cond_Zopp_negb.
    apply normalize_equiv.
  Qed.
  Lemma div_equiv (x y : bf) : SFdiv prec emax (B2SF x) (B2SF y) = B2SF (Bdiv mode_NE x y).
  Proof.
    destruct x, y; try (simpl; case Bool.eqb; reflexivity); try reflexivity. simpl. rewrite B2SF_SF2B.
    set (melz := SFdiv_core_binary _ _ _ _ _ _). case melz as [[mz ez] lz]. apply aux_equiv.
  Qed.
  Lemma sqrt_equiv (x : bf) : SFsqrt prec emax (B2SF x) = B2SF (Bsqrt mode_NE x).
  Proof.
    destruct x as [sx|sx| |sx mx ex Bx]; [now (trivial || case sx).. | ]. case sx; [reflexivity|]. simpl. rewrite B2SF_SF2B.
    set (melz := SFsqrt_core_binary _ _ _ _). case melz as [[mz ez] lz]. apply aux_equiv.
  Qed.

  (** every valid float comes from Flocq's type *)
  Lemma valid_ex x : SpecFloat.valid_binary prec emax x = true -> exists b : bf, B2SF b = x.
  Proof. intros H. exists (SF2B x H). apply B2SF_SF2B. Qed.
  Lemma fin_ex x : fin x -> exists b : bf, B2SF b = x /\ is_finite b = true /\ B2R b = val x.
  Proof.
    intros [H1 H2]. destruct (valid_ex x H1) as [b <-]. exists b. split; [reflexivity|]. split; [by destruct b|]. by destruct b.
  Qed.
  Lemma fin_B2SF (b : bf) : is_finite b = true -> fin (B2SF b) /\ val (B2SF b) = B2R b.
  Proof. intros H. split; [split; [apply valid_binary_B2SF|by destruct b]|by destruct b]. Qed.
  Lemma fin_fmt x : fin x -> fmt (val x).
  Proof. intros H. destruct (fin_ex x H) as (b & _ & _ & <-). apply generic_format_B2R. Qed.

  Lemma in_range_iff r : in_range r -> Rlt_bool (Rabs (round radix2 fexp (round_mode mode_NE) r)) (bpow radix2 emax) = true.
  Proof. intros H. apply Rlt_bool_true. exact H. Qed.

  Lemma mul_spec x y : fin x -> fin y -> in_range (val x * val y) -> fin (SFmul prec emax x y) /\ val (SFmul prec emax x y) = rne (val x * val y).
  Proof.
    intros Hx Hy Hr. destruct (fin_ex x Hx) as (a & <- & Fa & Va). destruct (fin_ex y Hy) as (b & <- & Fb & Vb). rewrite mul_equiv.
    pose proof (Bmult_correct prec emax Hp Hm mode_NE a b) as H. rewrite Va, Vb, in_range_iff in H by exact Hr. destruct H as (H1 & H2 & _).
    rewrite Fa, Fb in H2. destruct (fin_B2SF _ H2) as [H3 ->]. split; [exact H3|exact H1].
  Qed.
  Lemma add_spec x y : fin x -> fin y -> in_range (val x + val y) -> fin (SFadd prec emax x y) /\ val (SFadd prec emax x y) = rne (val x + val y).
  Proof.
    intros Hx Hy Hr. destruct (fin_ex x Hx) as (a & <- & Fa & Va). destruct (fin_ex y Hy) as (b & <- & Fb & Vb). rewrite add_equiv.
    pose proof (Bplus_correct prec emax Hp Hm mode_NE a b Fa Fb) as H. rewrite Va, Vb, in_range_iff in H by exact Hr. destruct H as (H1 & H2 & _).
    destruct (fin_B2SF _ H2) as [H3 ->]. split; [exact H3|exact H1].
  Qed.
  Lemma sub_spec x y : fin x -> fin y -> in_range (val x - val y) -> fin (SFsub prec emax x y) /\ val (SFsub prec emax x y) = rne (val x - val y).
  Proof.
    intros Hx Hy Hr. destruct (fin_ex x Hx) as (a & <- & Fa & Va). destruct (fin_ex y Hy) as (b & <- & Fb & Vb). rewrite sub_equiv.
    pose proof (Bminus_correct prec emax Hp Hm mode_NE a b Fa Fb) as H. rewrite Va, Vb, in_range_iff in H by exact Hr. destruct H as (H1 & H2 & _).
    destruct (fin_B2SF _ H2) as [H3 ->]. split; [exact H3|exact H1].
  Qed.
  Lemma div_spec x y : fin x -> fin y -> val y <> 0%R -> in_range (val x / val y) -> fin (SFdiv prec emax x y) /\ val (SFdiv prec emax x y) = rne (val x / val y).
  Proof.
    intros Hx Hy H0 Hr. destruct (fin_ex x Hx) as (a & <- & Fa & Va). destruct (fin_ex y Hy) as (b & <- & Fb & Vb). rewrite div_equiv.
    rewrite <- Vb in H0. pose proof (Bdiv_correct prec emax Hp Hm mode_NE a b H0) as H. rewrite Va, Vb, in_range_iff in H by exact Hr. destruct H as (H1 & H2 & _).
    rewrite Fa in H2. destruct (fin_B2SF _ H2) as [H3 ->]. split; [exact H3|exact H1].
  Qed.
  Lemma normalize_spec m e sz : let r := F2R (Float radix2 m e) in in_range r ->
    fin (SpecFloat.binary_normalize prec emax m e sz) /\ val (SpecFloat.binary_normalize prec emax m e sz) = rne r.
  Proof.
    intros r Hr. rewrite normalize_equiv. pose proof (binary_normalize_correct prec emax Hp Hm mode_NE m e sz) as H.
    fold r in H. cbv zeta in H. rewrite in_range_iff in H by exact Hr. destruct H as (H1 & H2 & _).
    destruct (fin_B2SF _ H2) as [H3 ->]. split; [exact H3|exact H1].
  Qed.
  Lemma ltb_spec x y : fin x -> fin y -> SFltb x y = true <-> (val x < val y)%R.
  Proof.
    intros Hx Hy. destruct (fin_ex x Hx) as (a & <- & Fa & Va). destruct (fin_ex y Hy) as (b & <- & Fb & Vb).
    pose proof (Bltb_correct prec emax a b Fa Fb) as H. unfold Bltb in H. rewrite H, Va, Vb. case Rlt_bool_spec; intros; split; try done; lra.
  Qed.
  Lemma leb_spec x y : fin x -> fin y -> SFleb x y = true <-> (val x <= val y)%R.
  Proof.
    intros Hx Hy. destruct (fin_ex x Hx) as (a & <- & Fa & Va). destruct (fin_ex y Hy) as (b & <- & Fb & Vb).
    pose proof (Bleb_correct prec emax a b Fa Fb) as H. unfold Bleb in H. rewrite H, Va, Vb. case Rle_bool_spec; intros; split; try done; lra.
  Qed.
  Lemma abs_spec x : fin x -> fin (SFabs x) /\ val (SFabs x) = Rabs (val x).
  Proof.
    intros [H1 H2]. destruct x as [s|s| |s m e]; try done.
    - split; [done|]. unfold val. simpl. by rewrite Rabs_R0.
    - split; [split; done|]. unfold val. simpl. rewrite <- F2R_Zabs. by destruct s.
  Qed.

  (** ** Bounds on rounded values *)
  Global Instance fexp_valid : Valid_exp fexp := fexp_correct prec emax Hp.
  Lemma rne_id r : fmt r -> rne r = r.
  Proof. intros H. apply round_generic; [apply valid_rnd_N|exact H]. Qed.
  Lemma rne_mono r1 r2 : (r1 <= r2)%R -> (rne r1 <= rne r2)%R.
  Proof. intros H. apply round_le; [apply fexp_valid|apply valid_rnd_N|exact H]. Qed.
  Lemma rne_le r b : fmt b -> (r <= b)%R -> (rne r <= b)%R.
  Proof. intros Hb H. rewrite <- (rne_id b Hb). by apply rne_mono. Qed.
  Lemma rne_ge r b : fmt b -> (b <= r)%R -> (b <= rne r)%R.
  Proof. intros Hb H. rewrite <- (rne_id b Hb). by apply rne_mono. Qed.
  Lemma rne_0 : rne 0 = 0%R.
  Proof. apply round_0, valid_rnd_N. Qed.
  Lemma fmt_0 : fmt 0.
  Proof. apply generic_format_0. Qed.
  Lemma fmt_opp r : fmt r -> fmt (- r).
  Proof. apply generic_format_opp. Qed.
  Lemma rne_opp r : rne (- r) = (- rne r)%R.
  Proof. apply round_NE_opp. Qed.
  Lemma fmt_bpow e : 3 - emax - prec <= e -> fmt (bpow radix2 e).
  Proof. intros H. apply generic_format_bpow. unfold SpecFloat.fexp, SpecFloat.emin. unfold Prec_gt_0 in Hp. lia. Qed.
  (** integers of at most [prec] bits *)
  Lemma fmt_int z : (Z.abs z <= 2 ^ prec) -> fmt (IZR z).
  Proof.
    intros Hz. unfold Prec_gt_0, Prec_lt_emax in *. destruct (Z.eq_dec (Z.abs z) (2 ^ prec)) as [E|E].
    - assert (z = 2 ^ prec \/ z = - 2 ^ prec) as [->| ->] by lia.
      + change 2 with (radix_val radix2). rewrite IZR_Zpower by lia. apply fmt_bpow. lia.
      + rewrite opp_IZR. apply fmt_opp. change 2 with (radix_val radix2). rewrite IZR_Zpower by lia. apply fmt_bpow. lia.
    - unfold fmt. replace (IZR z) with (F2R (Float radix2 z 0)) by (unfold F2R; simpl; ring).
      apply generic_format_F2R. intros Hz0. unfold cexp, SpecFloat.fexp, SpecFloat.emin.
      rewrite mag_F2R_Zdigits by done. assert (Zdigits radix2 z <= prec).
      { apply Zdigits_le_Zpower. change (radix_val radix2) with 2. lia. } lia.
  Qed.
  Lemma in_range_le r b : fmt b -> (b < bpow radix2 emax)%R -> (Rabs r <= b)%R -> in_range r.
  Proof.
    intros Hb Hlt Hr. unfold in_range. apply Rle_lt_trans with b; [|exact Hlt].
    apply Rabs_le. apply Rabs_le_inv in Hr. split; [|apply rne_le; tauto].
    apply rne_ge; [by apply fmt_opp|tauto].
  Qed.
  Lemma fin_range x : fin x -> (Rabs (val x) < bpow radix2 emax)%R.
  Proof. intros H. destruct (fin_ex x H) as (b & _ & _ & <-). apply abs_B2R_lt_emax. Qed.
  (** finite floats are determined by their value, but for the sign of zero *)
  Lemma val_inj x y : fin x -> fin y -> val x = val y -> val x <> 0%R -> x = y.
  Proof.
    intros Hx Hy E Hn. assert (val y <> 0%R) as Hn' by congruence. destruct (fin_ex x Hx) as (a & <- & Fa & Va). destruct (fin_ex y Hy) as (b & <- & Fb & Vb).
    f_equal. apply B2R_inj; [by destruct a| |congruence]. by destruct b.
  Qed.
  Lemma val_zero x : fin x -> val x = 0%R -> exists s, x = S754_zero s.
  Proof.
    intros [_ Hf] H. destruct x as [s|s| |s m e]; try done; [by exists s|]. unfold val in H. cbn in H.
    apply eq_0_F2R in H. by destruct s.
  Qed.
  Lemma val_pos x : fin x -> (0 < val x)%R -> exists m e, x = S754_finite false m e.
  Proof.
    intros [_ Hf] H. destruct x as [s|s| |[] m e]; try done; unfold val in H; cbn in H; try lra; [|by exists m, e].
    exfalso. apply (Rlt_irrefl 0). apply Rlt_trans with (F2R (Float radix2 (Zneg m) e)); [exact H|by apply F2R_lt_0].
  Qed.
  (** small integers are exact *)
  Lemma normalize_int z sz : Z.abs z <= 2 ^ prec -> fin (SpecFloat.binary_normalize prec emax z 0 sz) /\ val (SpecFloat.binary_normalize prec emax z 0 sz) = IZR z.
  Proof.
    intros Hz. assert (F2R (Float radix2 z 0) = IZR z) as E by (unfold F2R; simpl; ring).
    pose proof (fmt_int z Hz) as Hf. destruct (normalize_spec z 0 sz) as [H1 H2].
    - rewrite E. apply (in_range_le _ (Rabs (IZR z))); [|rewrite <- abs_IZR|lra].
      + by apply generic_format_abs.
      + apply Rle_lt_trans with (bpow radix2 prec).
        * rewrite <- IZR_Zpower by (unfold Prec_gt_0 in Hp; lia). apply IZR_le. exact Hz.
        * apply bpow_lt. exact Hm.
    - split; [exact H1|]. rewrite H2, E. by apply rne_id.
  Qed.
  Lemma normalize_any z sz k : k < emax -> prec <= k -> Z.abs z <= 2 ^ k -> fin (SpecFloat.binary_normalize prec emax z 0 sz) /\ val (SpecFloat.binary_normalize prec emax z 0 sz) = rne (IZR z).
  Proof.
    intros Hk Hk' Hz. unfold Prec_gt_0, Prec_lt_emax in *. assert (F2R (Float radix2 z 0) = IZR z) as E by (unfold F2R; simpl; ring).
    rewrite <- E. apply normalize_spec. rewrite E. apply (in_range_le _ (bpow radix2 k)); [apply fmt_bpow; lia|apply bpow_lt; lia|].
    rewrite <- abs_IZR, <- IZR_Zpower by lia. apply IZR_le. exact Hz.
  Qed.
  Lemma mant_lt s m e : SpecFloat.valid_binary prec emax (S754_finite s m e) = true -> Zpos m < 2 ^ prec.
  Proof.
    intros H. cbn in H. unfold SpecFloat.bounded, SpecFloat.canonical_mantissa in H. apply andb_prop in H as [H _]. apply Zeq_bool_eq in H.
    unfold SpecFloat.fexp in H. rewrite Digits.Zpos_digits2_pos in H.
    assert (Zdigits radix2 (Zpos m) <= prec) as Hd by lia.
    change 2 with (radix_val radix2). rewrite <- (Z.abs_eq (Zpos m)) by lia. apply Zpower_gt_Zdigits. exact Hd.
  Qed.
  Lemma val_neg_exp s m e : e < 0 -> val (S754_finite s m e) = (IZR (Floats.cond_neg s (Zpos m)) / IZR (2 ^ (- e)))%R.
  Proof.
    intros He. unfold val. cbn. unfold F2R. cbn [Fnum Fexp]. replace (cond_Zopp s (Zpos m)) with (Floats.cond_neg s (Zpos m)) by (by destruct s).
    unfold Rdiv. f_equal. rewrite <- (Z.opp_involutive e) at 1. rewrite bpow_opp. f_equal. change 2 with (radix_val radix2). rewrite IZR_Zpower by lia. reflexivity.
  Qed.
  Lemma val_nonneg_exp s m e : 0 <= e -> val (S754_finite s m e) = IZR (Floats.cond_neg s (Zpos m) * 2 ^ e).
  Proof.
    intros He. unfold val. cbn. unfold F2R. cbn [Fnum Fexp]. replace (cond_Zopp s (Zpos m)) with (Floats.cond_neg s (Zpos m)) by (by destruct s).
    rewrite mult_IZR. f_equal. change 2 with (radix_val radix2). by rewrite IZR_Zpower by lia.
  Qed.
  Lemma floor_pair_spec s m e : floor_pair s m e = Zfloor (val (S754_finite s m e)).
  Proof.
    unfold floor_pair. destruct (Z.leb_spec 0 e) as [He|He].
    - rewrite val_nonneg_exp by lia. by rewrite Zfloor_IZR.
    - rewrite val_neg_exp by lia. rewrite Zfloor_div; [done|]. apply Z.pow_nonzero; lia.
  Qed.
  Lemma trunc_pair_spec m e : trunc_pair false m e = Zfloor (val (S754_finite false m e)).
  Proof. rewrite <- floor_pair_spec. done. Qed.
  Lemma round_pair_spec m e : round_pair false m e = Zfloor (val (S754_finite false m e) + /2).
  Proof.
    unfold round_pair. destruct (Z.leb_spec 0 e) as [He|He].
    - rewrite val_nonneg_exp by lia. cbn [Floats.cond_neg]. symmetry. apply Zfloor_imp. rewrite plus_IZR. lra.
    - rewrite val_neg_exp by lia. cbn [Floats.cond_neg]. replace (1 - e) with (Z.succ (- e)) by lia. rewrite Z.pow_succ_r by lia.
      assert (0 < 2 ^ (- e)) as Hpw by (apply Z.pow_pos_nonneg; lia).
      rewrite <- Zfloor_div by lia. f_equal. rewrite plus_IZR, !mult_IZR. field. apply not_0_IZR. lia.
  Qed.
  (** std::floor, std::round (of non-negative values) and conversion to unsigned *)
  Lemma floor_spec x : fin x -> let y := match x with S754_finite s m e => if 0 <=? e then x else SpecFloat.binary_normalize prec emax (floor_pair s m e) 0 s | _ => x end in
    fin y /\ val y = IZR (Zfloor (val x)).
  Proof.
    intros Hx y. destruct x as [s|s| |s m e]; try (destruct Hx as [_ Hx]; done).
    - split; [exact Hx|]. unfold val, y. cbn. by rewrite Zfloor_IZR.
    - unfold y. destruct (Z.leb_spec 0 e) as [He|He].
      + split; [exact Hx|]. rewrite val_nonneg_exp by lia. by rewrite Zfloor_IZR.
      + rewrite <- floor_pair_spec. apply normalize_int. destruct Hx as [Hv _]. apply mant_lt in Hv. unfold floor_pair.
        rewrite (proj2 (Z.leb_gt 0 e)) by lia. assert (1 <= 2 ^ (- e)) as Hpw by (apply Z.lt_pred_le, Z.pow_pos_nonneg; lia).
        assert (- Zpos m <= Floats.cond_neg s (Zpos m) / 2 ^ (- e) <= Zpos m) as Hb; [|lia]. split.
        * apply Z.div_le_lower_bound; [lia|]. destruct s; cbn; nia.
        * apply Z.div_le_upper_bound; [lia|]. destruct s; cbn; nia.
  Qed.
  Lemma round_spec x : fin x -> (0 <= val x)%R -> let y := match x with S754_finite s m e => if 0 <=? e then x else SpecFloat.binary_normalize prec emax (round_pair s m e) 0 s | _ => x end in
    fin y /\ val y = IZR (Zfloor (val x + /2)).
  Proof.
    intros Hx H0 y. destruct (Rle_lt_or_eq_dec _ _ H0) as [Hpos|Hz].
    - destruct (val_pos x Hx Hpos) as (m & e & ->). unfold y. destruct (Z.leb_spec 0 e) as [He|He].
      + split; [exact Hx|]. rewrite val_nonneg_exp by lia. f_equal. symmetry. apply Zfloor_imp. rewrite plus_IZR. lra.
      + rewrite <- round_pair_spec. apply normalize_int. destruct Hx as [Hv _]. apply mant_lt in Hv. unfold round_pair.
        rewrite (proj2 (Z.leb_gt 0 e)) by lia. cbn [Floats.cond_neg].
        replace (1 - e) with (Z.succ (- e)) by lia. rewrite Z.pow_succ_r by lia.
        assert (1 <= 2 ^ (- e)) as Hpw by (apply Z.lt_pred_le, Z.pow_pos_nonneg; lia).
        assert (0 <= (2 * Zpos m + 2 ^ (- e)) / (2 * 2 ^ (- e)) <= Zpos m) as Hb; [|lia]. split.
        * apply Z.div_pos; lia.
        * apply Z.lt_succ_r, Z.div_lt_upper_bound; [lia|]. nia.
    - destruct (val_zero x Hx (eq_sym Hz)) as [s ->]. split; [exact Hx|]. unfold y, val. cbn. f_equal. symmetry. apply Zfloor_imp. rewrite plus_IZR. lra.
  Qed.
  Lemma to_u32_spec x : fin x -> (0 <= val x < 4294967296)%R -> to_u32 x = Ret (Zfloor (val x)).
  Proof.
    intros Hx [H0 H1]. destruct (Rle_lt_or_eq_dec _ _ H0) as [Hpos|Hz].
    - destruct (val_pos x Hx Hpos) as (m & e & ->). unfold to_u32. rewrite trunc_pair_spec.
      assert (0 <= Zfloor (val (S754_finite false m e)) <= 4294967295) as Hb.
      { split; [by apply Zfloor_lub|]. apply Z.lt_succ_r. apply lt_IZR. eapply Rle_lt_trans; [apply Zfloor_lb|exact H1]. }
      rewrite (proj2 (Z.leb_le _ _) (proj1 Hb)), (proj2 (Z.leb_le _ _) (proj2 Hb)). done.
    - destruct (val_zero x Hx (eq_sym Hz)) as [s ->]. cbn. unfold val. cbn. by rewrite Zfloor_IZR.
  Qed.
  (** relative error of rounding *)
  Lemma rne_rel r : (bpow radix2 (2 - emax) <= Rabs r)%R -> exists eps, (Rabs eps <= bpow radix2 (- prec))%R /\ rne r = (r * (1 + eps))%R.
  Proof.
    intros H. destruct (relative_error_N_FLT_ex radix2 (3 - emax - prec) prec Hp (fun n => negb (Z.even n)) r) as (eps & H1 & H2).
    - replace (3 - emax - prec + prec - 1) with (2 - emax) by lia. exact H.
    - exists eps. split; [|exact H2]. eapply Rle_trans; [exact H1|]. rewrite bpow_plus. change (bpow radix2 1) with 2%R. lra.
  Qed.
  Lemma in_range_bpow r e : 3 - emax - prec <= e < emax -> (Rabs r <= bpow radix2 e)%R -> in_range r.
  Proof. intros He Hr. apply (in_range_le r (bpow radix2 e)); [apply fmt_bpow; lia|apply bpow_lt; lia|exact Hr]. Qed.
  (** ** Operations without a range condition: on overflow the result is an infinity *)
  Definition sgn (x : spec_float) : bool := match x with S754_zero s | S754_infinity s | S754_finite s _ _ => s | S754_nan => false end.
  Lemma sgn_B2SF (b : bf) : Bsign b = sgn (B2SF b).
  Proof. by destruct b. Qed.
  Lemma mul_any x y : fin x -> fin y ->
    (fin (SFmul prec emax x y) /\ val (SFmul prec emax x y) = rne (val x * val y)) \/ SFmul prec emax x y = S754_infinity (xorb (sgn x) (sgn y)).
  Proof.
    intros Hx Hy. destruct (Rlt_dec (Rabs (rne (val x * val y))) (bpow radix2 emax)) as [Hr|Hr]; [left; by apply mul_spec|right].
    destruct (fin_ex x Hx) as (a & <- & Fa & Va). destruct (fin_ex y Hy) as (b & <- & Fb & Vb). rewrite mul_equiv.
    pose proof (Bmult_correct prec emax Hp Hm mode_NE a b) as H. rewrite Va, Vb, Rlt_bool_false in H by (apply Rnot_lt_le; exact Hr).
    rewrite H, !sgn_B2SF. reflexivity.
  Qed.
  Lemma add_any x y : fin x -> fin y ->
    (fin (SFadd prec emax x y) /\ val (SFadd prec emax x y) = rne (val x + val y)) \/ (SFadd prec emax x y = S754_infinity (sgn x) /\ sgn x = sgn y).
  Proof.
    intros Hx Hy. destruct (Rlt_dec (Rabs (rne (val x + val y))) (bpow radix2 emax)) as [Hr|Hr]; [left; by apply add_spec|right].
    destruct (fin_ex x Hx) as (a & <- & Fa & Va). destruct (fin_ex y Hy) as (b & <- & Fb & Vb). rewrite add_equiv.
    pose proof (Bplus_correct prec emax Hp Hm mode_NE a b Fa Fb) as H. rewrite Va, Vb, Rlt_bool_false in H by (apply Rnot_lt_le; exact Hr).
    destruct H as [H H']. rewrite !sgn_B2SF in *. rewrite H. split; [reflexivity|exact H'].
  Qed.
  Lemma sub_any x y : fin x -> fin y ->
    (fin (SFsub prec emax x y) /\ val (SFsub prec emax x y) = rne (val x - val y)) \/ (SFsub prec emax x y = S754_infinity (sgn x) /\ sgn x = negb (sgn y)).
  Proof.
    intros Hx Hy. destruct (Rlt_dec (Rabs (rne (val x - val y))) (bpow radix2 emax)) as [Hr|Hr]; [left; by apply sub_spec|right].
    destruct (fin_ex x Hx) as (a & <- & Fa & Va). destruct (fin_ex y Hy) as (b & <- & Fb & Vb). rewrite sub_equiv.
    pose proof (Bminus_correct prec emax Hp Hm mode_NE a b Fa Fb) as H. rewrite Va, Vb, Rlt_bool_false in H by (apply Rnot_lt_le; exact Hr).
    destruct H as [H H']. rewrite !sgn_B2SF in *. rewrite H. split; [reflexivity|exact H'].
  Qed.
  Lemma sgn_neg x : fin x -> (val x < 0)%R -> sgn x = true.
  Proof.
    intros H Hv. destruct x as [|s| |s m e]; try (cbn in Hv; lra); try (by destruct H). unfold val in Hv. destruct s; [done|]. cbn in Hv.
    pose proof (F2R_gt_0 radix2 (Float radix2 (Zpos m) e) ltac:(cbn; lia)). cbn in *. lra.
  Qed.
  Lemma sgn_pos x : fin x -> (0 < val x)%R -> sgn x = false.
  Proof. intros H Hv. by destruct (val_pos x H Hv) as (m & e & ->). Qed.
End Fmt.
