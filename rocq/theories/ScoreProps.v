(** * What scores say about classifiers: order of the results of evaluate. *)
From Verif Require Import HistFacts FloatFacts FloatProps.
From Coq Require Import Reals Psatz.
From Flocq Require Import Core.Core IEEE754.BinarySingleNaN.
From stdpp Require Import list.
Local Open Scope Z_scope.

Lemma acc32_val k n : 1 <= n <= int_max -> 0 <= k <= n ->
  fin32 (acc32 k n) /\ val (acc32 k n) = r32 (1 - r32 (r32 (IZR k) / r32 (IZR n))).
Proof.
  intros Hn Hk. unfold int_max in Hn. unfold acc32.
  destruct (of_Z32 n) as [Fn Vn]; [lia|]. destruct (of_Z32 k) as [Fk Vk]; [lia|]. destruct one32 as [F1 V1].
  assert (1 <= IZR n <= 2147483648)%R as Hnr by (split; apply IZR_le; lia). assert (0 <= IZR k <= IZR n)%R as Hkr by (split; apply IZR_le; lia).
  assert (1 <= r32 (IZR n) <= 2147483648)%R as Hnb.
  { split; [apply r32_pos; lia|]. apply r32_le; [apply (fmt32_pow 31); lia|]. lra. }
  assert (0 <= r32 (IZR k) <= r32 (IZR n))%R as Hkb. { split; [apply r32_ge; [apply fmt_0|lra]|]. apply rne_mono; [apply p32|lra]. }
  destruct (one_mul32 _ Fk) as [Fm Vm]; [rewrite Vk, Rabs_pos_eq; lra|]. rewrite Vk in Vm.
  assert (0 <= r32 (IZR k) / r32 (IZR n) <= 1)%R as Hq.
  { split; [apply Rmult_le_pos; [lra|left; apply Rinv_0_lt_compat; lra]|]. apply Rmult_le_reg_r with (r32 (IZR n)); [lra|]. unfold Rdiv. rewrite Rmult_assoc, Rinv_l; lra. }
  destruct (div32 _ _ Fm Fn) as [Fd Vd]; [rewrite Vn; lra|rewrite Vm, Vn, Rabs_pos_eq; lra|]. rewrite Vm, Vn in Vd.
  assert (0 <= r32 (r32 (IZR k) / r32 (IZR n)) <= 1)%R as Hd by (by apply r32_01).
  destruct (sub32 _ _ F1 Fd) as [Fs Vs]; [rewrite V1, Vd, Rabs_pos_eq; lra|]. rewrite V1, Vd in Vs. done.
Qed.
Lemma acc32_mono k1 k2 n : 1 <= n <= int_max -> 0 <= k1 <= k2 -> k2 <= n -> f_le (acc32 k2 n) (acc32 k1 n) = true.
Proof.
  intros Hn H1 H2. destruct (acc32_val k1 n) as [F1 V1]; [done|lia|]. destruct (acc32_val k2 n) as [F2 V2]; [done|lia|].
  unfold f_le. apply (leb_spec 24 128); [done|done|]. rewrite V1, V2.
  assert (1 <= r32 (IZR n))%R as Hp by (apply r32_pos; lia).
  apply rne_mono; [apply p32|]. apply Rplus_le_compat_l, Ropp_le_contravar. apply rne_mono; [apply p32|].
  apply Rmult_le_compat_r; [left; apply Rinv_0_lt_compat; lra|]. apply rne_mono; [apply p32|]. apply IZR_le. lia.
Qed.
Lemma acc32_strict k1 k2 n : 1 <= n <= 2097152 -> 0 <= k1 < k2 -> k2 <= n -> f_lt (acc32 k2 n) (acc32 k1 n) = true.
Proof.
  intros Hn H1 H2. destruct (acc32_val k1 n) as [F1 V1]; [unfold int_max; lia|lia|]. destruct (acc32_val k2 n) as [F2 V2]; [unfold int_max; lia|lia|].
  unfold f_lt. apply (ltb_spec 24 128); [done|done|]. rewrite V1, V2.
  rewrite !(rne_id 24 128 (IZR _)) by (apply fmt32_int; lia).
  assert (1 <= IZR n <= 2097152)%R as Hnr by (split; apply IZR_le; lia).
  assert (/ 2097152 <= / IZR n)%R as Hi by (apply Rinv_le_contravar; lra). set (i := (/ IZR n)%R) in *.
  assert (IZR n * i = 1)%R as Hni by (apply Rinv_r; lra).
  assert (0 <= IZR k1)%R as Hk0 by (apply IZR_le; lia). assert (IZR k1 + 1 <= IZR k2)%R as Hk1 by (rewrite <- plus_IZR; apply IZR_le; lia).
  assert (IZR k2 <= IZR n)%R as Hk2 by (apply IZR_le; lia). unfold Rdiv. fold i.
  assert (0 <= IZR k1 * i)%R as A0 by nra. assert (IZR k1 * i + / 2097152 <= IZR k2 * i)%R as A1 by nra. assert (IZR k2 * i <= 1)%R as A2 by nra.
  set (p := (IZR k1 * i)%R) in *. set (q := (IZR k2 * i)%R) in *. clearbody p q.
  assert (bpow radix2 (-150) <= / 1000000000000)%R as Hb150.
  { rewrite bpow_m150. pose proof bpow_m50. pose proof bpow_m100. pose proof (bpow_gt_0 radix2 (-50)). pose proof (bpow_gt_0 radix2 (-100)).
    apply Rle_trans with (1 * bpow radix2 (-50))%R; [apply Rmult_le_compat_r; lra|lra]. }
  assert (forall z, (0 <= z <= 1)%R -> (z - / 16000000 <= r32 z <= z + / 16000000)%R) as Hr.
  { intros z Hz. destruct (r32_err z) as (e & t & He & Ht & ->). assert (Rabs z <= 1)%R as Hz1 by (rewrite Rabs_pos_eq; lra).
    pose proof (mul_bd _ _ _ _ Hz1 He). apply Rabs_le_inv in Ht. lra. }
  pose proof (Hr p). pose proof (Hr q). pose proof (r32_01 p). pose proof (r32_01 q).
  pose proof (Hr (1 - r32 p)%R). pose proof (Hr (1 - r32 q)%R). lra.
Qed.
Lemma acc32_large n : 67108864 <= n <= int_max -> acc32 1 n = f32_one.
Proof.
  intros Hn. destruct (acc32_val 1 n) as [F V]; [lia|unfold int_max in Hn; lia|]. destruct one32 as [F1 V1].
  assert (val (acc32 1 n) = 1%R) as V2.
  { rewrite V. apply Rle_antisym.
    + apply r32_01. assert (0 <= r32 (r32 1 / r32 (IZR n)) <= 1)%R; [|lra]. apply r32_01.
      rewrite (rne_id 24 128 1) by (apply (fmt32_int 1); lia). assert (1 <= r32 (IZR n))%R by (apply r32_pos; lia).
      split; [apply Rmult_le_pos; [lra|left; apply Rinv_0_lt_compat; lra]|]. apply Rmult_le_reg_r with (r32 (IZR n)); [lra|]. unfold Rdiv. rewrite Rmult_assoc, Rinv_l; lra.
    + assert (r32 (r32 1 / r32 (IZR n)) <= / 67108864)%R as Hs.
      { apply r32_le. { replace (/ 67108864)%R with (bpow radix2 (-26)) by (simpl; lra). apply fmt32_pow. lia. }
        rewrite (rne_id 24 128 1) by (apply (fmt32_int 1); lia). unfold Rdiv. rewrite Rmult_1_l. apply Rinv_le_contravar; [lra|].
        apply r32_ge; [apply (fmt32_pow 26); lia|]. apply IZR_le. lia. }
      assert (val (f32_sub f32_one (S754_finite false 8388608 (-49))) = 1%R) as E.
      { replace (f32_sub f32_one (S754_finite false 8388608 (-49))) with f32_one by reflexivity. done. }
      destruct (sub32 f32_one (S754_finite false 8388608 (-49))) as [_ Vc]; [done|by split| |].
      { rewrite V1. unfold val, SF2R, F2R. simpl. rewrite Rabs_pos_eq; lra. }
      rewrite V1 in Vc. replace (val (S754_finite false 8388608 (-49))) with (/ 67108864)%R in Vc by (unfold val, SF2R, F2R; simpl; lra).
      rewrite E in Vc. apply Rle_trans with (r32 (1 - / 67108864)); [lra|]. apply rne_mono; [apply p32|]. lra.
  }
  apply (val_inj 24 128); [done|done|by rewrite V1, V2|rewrite V2; lra].
Qed.
Lemma agreements_all xs ys : length ys = length xs -> agreements xs ys = length xs -> xs = ys.
Proof.
  revert ys. induction xs as [|x xs IH]; intros [|y ys] Hl H; try done. cbn in *. injection Hl as Hl. pose proof (agreements_le xs ys) as Hle.
  destruct (Z.eqb_spec x y) as [->|]; [|lia]. f_equal. apply IH; lia.
Qed.
Lemma agreements_replicate c n : agreements (replicate n c) ((c + 1) :: replicate (n - 1) c) = (n - 1)%nat.
Proof.
  destruct n as [|n]; [done|]. cbn [replicate agreements]. destruct (Z.eqb_spec c (c + 1)) as [H|_]; [lia|].
  replace (S n - 1)%nat with n by lia. rewrite agreements_self, replicate_length. done.
Qed.

Section Eval.
  Context {R : rnd} (g_ok : eG R -> Prop) (f_ok : eF R -> Prop) (HR : rnd_ok R g_ok f_ok).
  Context (S : sch) (HS : sch_ok S).
  Context (A : algo R) (vw : aview A) (HA : tsetlini_algo R A vw).
  Notation est := (est (a_pol A) (eS S) (eG R) (eF R)).

  (** the score is a function of the number of agreements and of the number of samples *)
  Lemma evaluate_score a p os rs (e : est) L nf X y : clf_created a p -> clf_history S A vw p os rs e -> clf_dims_of os rs = Some (L, nf) ->
    X <> [] -> Forall (v_phys vw) X -> Forall (v_ok vw nf) X -> length y = length X -> Z.of_nat (length X) <= int_max ->
    exists ys e1 e2, clf_predict S A e X = Ret (Right ys, e1) /\ length ys = length X /\
      clf_evaluate S A e X y = Ret (Right (acc32 (Z.of_nat (length X - agreements ys y)) (Z.of_nat (length X))), e2) /\
      ys = clf_label vw a L nf (e_ta e) <$> X.
  Proof.
    intros Hc Hh Hd Hne Hph Hok Hl Hn.
    destruct (clf_predict_answer g_ok f_ok HR S HS A vw HA a p os rs e Hc Hh X Hph) as (r & e1 & E1 & An).
    rewrite Hd in An. cbn [clf_answer] in An. destruct An as [[_ An]|[Hb _]]; [|by destruct Hb].
    assert (r = Right (clf_label vw a L nf (e_ta e) <$> X)) as -> by congruence.
    destruct (clf_hist_laws g_ok f_ok HR A vw HA a (cc_valid _ _ Hc)) as (I & Ea & Eb & E2 & Lw).
    pose proof (clf_history_at g_ok f_ok HR S HS A vw _ _ I Ea Eb E2 Lw a p os rs e Hc eq_refl eq_refl Hh) as Hat.
    specialize (Lw True True). pose proof (cc_valid _ _ Hc) as Ha. rewrite Hd in Hat. destruct Hat as [Hf _].
    destruct (clf_evaluate_spec g_ok f_ok S HS A vw True True _ _ I Ea Eb E2 Lw a L nf Ha e Hf X y Hok) as (c & Ev & _); [lia|done|].
    exists (clf_label vw a L nf (e_ta e) <$> X), e1, (with_cache S A c e). split; [done|]. split; [apply fmap_length|]. split; [|done].
    rewrite Ev. unfold mismatches. rewrite mismatch_count by done. done.
  Qed.
  Lemma score_one a p os rs (e e1 e2 : est) L nf X y ys v : clf_created a p -> clf_history S A vw p os rs e -> clf_dims_of os rs = Some (L, nf) ->
    X <> [] -> Forall (v_phys vw) X -> Forall (v_ok vw nf) X -> length y = length X -> Z.of_nat (length X) <= 2097152 ->
    clf_predict S A e X = Ret (Right ys, e1) -> clf_evaluate S A e X y = Ret (Right v, e2) -> (v = f32_one <-> ys = y).
  Proof.
    intros Hc Hh Hd Hne Hph Hok Hl Hn E1 E2.
    destruct (evaluate_score a p os rs e L nf X y Hc Hh Hd Hne Hph Hok Hl) as (ys' & e1' & e2' & E1' & Hys & E2' & _); [unfold int_max; lia|].
    assert (ys' = ys) as -> by congruence. assert (v = acc32 (Z.of_nat (length X - agreements ys y)) (Z.of_nat (length X))) as -> by congruence.
    clear E1 E2 E1' E2'. assert (0 < length X)%nat as Hpos by (destruct X; cbn; [done|lia]). pose proof (agreements_le ys y) as Hle.
    assert (acc32 0 (Z.of_nat (length X)) = f32_one) as E0 by (apply acc32_spec; unfold int_max; lia). split.
    - intros Ev. apply agreements_all; [lia|]. destruct (decide (agreements ys y = length ys)) as [|Hn']; [done|exfalso].
      pose proof (acc32_strict 0 (Z.of_nat (length X - agreements ys y)) (Z.of_nat (length X))) as Hs. rewrite E0, Ev in Hs.
      discriminate Hs; lia.
    - intros <-. rewrite agreements_self. by replace (length X - length ys)%nat with 0%nat by lia.
  Qed.
  Lemma score_one_large a p os rs (e : est) L nf x m : 67108864 <= Z.of_nat m <= int_max -> clf_created a p -> clf_history S A vw p os rs e -> clf_dims_of os rs = Some (L, nf) ->
    v_phys vw x -> v_ok vw nf x ->
    let X := replicate m x in
    exists y ys e1 e2, clf_predict S A e X = Ret (Right ys, e1) /\ length y = length X /\ ys <> y /\ clf_evaluate S A e X y = Ret (Right f32_one, e2).
  Proof.
    intros Hm Hc Hh Hd Hph Hok X. set (c := clf_label vw a L nf (e_ta e) x).
    assert (length X = m) as HX by apply replicate_length.
    exists ((c + 1) :: replicate (m - 1) c).
    assert (length ((c + 1) :: replicate (m - 1) c) = length X) as Hly by (cbn; rewrite replicate_length; lia).
    destruct (evaluate_score a p os rs e L nf X ((c + 1) :: replicate (m - 1) c) Hc Hh Hd) as (ys & e1 & e2 & E1 & Hys & E2 & Eys); [| | |done| |].
    - intros E. rewrite E in HX. cbn in HX. lia.
    - by apply Forall_replicate.
    - by apply Forall_replicate.
    - rewrite HX. lia.
    - exists ys, e1, e2. assert (ys = replicate m c) as ->.
      { rewrite Eys. unfold X. clear. induction m as [|m IH]; cbn; [done|]. by f_equal. }
      split; [done|]. split; [done|]. split.
      + destruct m as [|m]; [lia|]. cbn. intros [= Hc' _]. lia.
      + rewrite E2, HX, agreements_replicate. replace (m - (m - 1))%nat with 1%nat by lia. change (Z.of_nat 1) with 1. rewrite acc32_large; [done|lia].
  Qed.
End Eval.

Section Compare.
  Context {R1 R2 : rnd} (g1 : eG R1 -> Prop) (f1 : eF R1 -> Prop) (g2 : eG R2 -> Prop) (f2 : eF R2 -> Prop).
  Context (HR1 : rnd_ok R1 g1 f1) (HR2 : rnd_ok R2 g2 f2) (S1 S2 : sch) (HS1 : sch_ok S1) (HS2 : sch_ok S2).
  Context (A1 : algo R1) (A2 : algo R2) (v1 : aview A1) (v2 : aview A2) (HA1 : tsetlini_algo R1 A1 v1) (HA2 : tsetlini_algo R2 A2 v2).
  Lemma scores_ordered a1 p1 os1 rs1 e1 L1 nf1 X1 y1 ys1 s1 d1 d1' a2 p2 os2 rs2 e2 L2 nf2 X2 y2 ys2 s2 d2 d2' :
    clf_created a1 p1 -> clf_history S1 A1 v1 p1 os1 rs1 e1 -> clf_dims_of os1 rs1 = Some (L1, nf1) ->
    Forall (v_phys v1) X1 -> Forall (v_ok v1 nf1) X1 -> length y1 = length X1 ->
    clf_created a2 p2 -> clf_history S2 A2 v2 p2 os2 rs2 e2 -> clf_dims_of os2 rs2 = Some (L2, nf2) ->
    Forall (v_phys v2) X2 -> Forall (v_ok v2 nf2) X2 -> length y2 = length X2 ->
    length X1 = length X2 -> X1 <> [] -> Z.of_nat (length X1) <= int_max ->
    clf_predict S1 A1 e1 X1 = Ret (Right ys1, d1) -> clf_evaluate S1 A1 e1 X1 y1 = Ret (Right s1, d1') ->
    clf_predict S2 A2 e2 X2 = Ret (Right ys2, d2) -> clf_evaluate S2 A2 e2 X2 y2 = Ret (Right s2, d2') ->
    ((agreements ys1 y1 <= agreements ys2 y2)%nat -> f_le s1 s2 = true) /\
    (agreements ys1 y1 = agreements ys2 y2 -> s1 = s2) /\
    ((agreements ys1 y1 < agreements ys2 y2)%nat -> Z.of_nat (length X1) <= 2097152 -> f_lt s1 s2 = true).
  Proof.
    intros Hc1 Hh1 Hd1 Hp1 Hok1 Hl1 Hc2 Hh2 Hd2 Hp2 Hok2 Hl2 Hl Hne Hn P1 E1 P2 E2.
    assert (0 < length X1)%nat as Hpos by (destruct X1; cbn; [done|lia]).
    destruct (evaluate_score g1 f1 HR1 S1 HS1 A1 v1 HA1 a1 p1 os1 rs1 e1 L1 nf1 X1 y1) as (z1 & ? & ? & P1' & Hz1 & E1' & _); [done..|].
    destruct (evaluate_score g2 f2 HR2 S2 HS2 A2 v2 HA2 a2 p2 os2 rs2 e2 L2 nf2 X2 y2) as (z2 & ? & ? & P2' & Hz2 & E2' & _); [done..| | | | | |]; [|done|done|done|lia|].
    { intros ->. cbn in Hl. lia. }
    assert (z1 = ys1) as -> by congruence. assert (z2 = ys2) as -> by congruence.
    assert (s1 = acc32 (Z.of_nat (length X1 - agreements ys1 y1)) (Z.of_nat (length X1))) as -> by congruence.
    assert (s2 = acc32 (Z.of_nat (length X2 - agreements ys2 y2)) (Z.of_nat (length X2))) as -> by congruence.
    clear P1 E1 P2 E2 P1' P2' E1' E2'. rewrite <- Hl in *. pose proof (agreements_le ys1 y1). pose proof (agreements_le ys2 y2). split_and!.
    - intros Ha. apply acc32_mono; lia.
    - intros ->. done.
    - intros Ha Hs. apply acc32_strict; lia.
  Qed.
End Compare.
