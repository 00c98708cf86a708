(** * Digit generation of Grisu2 (Grisu.v): the digits denote a number between the two bounds, and no assertion fails. *)
From Verif Require Import Base Floats Grisu GrisuFacts JsonGrammar.
From stdpp Require Import list.
From Coq Require Import ZArith Lia Psatz.
Local Open Scope Z_scope.

Notation U := 18446744073709551616.
Lemma decimal_snoc l c : decimal (l ++ [c]) = decimal l * 10 + (c - 48).
Proof. unfold decimal. by rewrite fold_left_app. Qed.
Lemma jassert_le a b : a <= b -> jassert (a <=? b) = Ret tt.
Proof. intros. apply jassert_true. by apply Z.leb_le. Qed.
Lemma jassert_lt a b : a < b -> jassert (a <? b) = Ret tt.
Proof. intros. apply jassert_true. by apply Z.ltb_lt. Qed.

(** ** Rounding the last digit *)
Lemma round_loop_spec fuel : forall d rest dist delta ten, 0 <= d -> d < Z.of_nat fuel -> 0 <= rest <= delta -> 0 <= dist <= delta -> delta < U -> 0 < ten ->
  delta < rest + d * ten ->
  exists d', round_loop fuel (48 + d) dist delta rest ten = Ret (48 + d') /\ 1 <= d' <= d /\ rest + (d - d') * ten <= delta.
Proof.
  induction fuel as [|fuel IH]; intros d rest dist delta ten Hd Hf Hr Hdi Hu Ht Hg; [lia|]. cbn [round_loop].
  assert (0 < d) by nia.
  destruct (_ && _) eqn:E.
  - apply andb_prop in E as [E _]. apply andb_prop in E as [E1%Z.ltb_lt E2%Z.leb_le]. rewrite u64_id in E2 by lia.
    assert (1 < d) by nia.
    rewrite jassert_true by (destruct (Z.eqb_spec (48 + d) 48); [lia|done]). cbn [obind]. rewrite u64_id by lia.
    replace (48 + d - 1) with (48 + (d - 1)) by lia.
    destruct (IH (d - 1) (rest + ten) dist delta ten) as (d' & -> & Hd' & Hx); try lia. exists d'. split; [done|]. split; [lia|]. lia.
  - exists d. split; [done|]. split; [lia|]. lia.
Qed.
Lemma grisu2_round_spec buf d rest dist delta ten : 0 <= d <= 9 -> 0 <= rest <= delta -> 0 <= dist <= delta -> delta < U -> 0 < ten ->
  delta < rest + d * ten ->
  exists d', grisu2_round buf (48 + d) dist delta rest ten = Ret (buf ++ [48 + d']) /\ 1 <= d' <= d /\ rest + (d - d') * ten <= delta.
Proof.
  intros Hd Hr Hdi Hu Ht Hg. unfold grisu2_round. rewrite jassert_le by lia. cbn [obind]. rewrite jassert_le by lia. cbn [obind]. rewrite jassert_lt by lia. cbn [obind].
  destruct (round_loop_spec 11 d rest dist delta ten) as (d' & -> & H); try lia. by exists d'.
Qed.

(** ** The digits *)
Definition good (buf : list Z) : Prop := digits buf /\ match buf with [] => True | c :: _ => 49 <= c end.
Lemma good_snoc buf d : good buf -> 0 <= d <= 9 -> (buf = [] -> 1 <= d) -> good (buf ++ [48 + d]).
Proof.
  intros [H1 H2] Hd Hn. split.
  - apply Forall_app. split; [done|]. repeat constructor; unfold digit; lia.
  - destruct buf; cbn [app]; [specialize (Hn eq_refl); lia|done].
Qed.

Section Gen.
  Context (P L W ne : Z).
  Context (HL : 0 < L) (HLW : L <= W) (HWP : W <= P) (HP : P < U) (Hne : 32 <= ne <= 60).
  Notation one := (2 ^ ne).
  Notation delta := (P - L).
  Notation dist := (P - W).
  Lemma one_pos : 0 < one.
  Proof using Hne. apply Z.pow_pos_nonneg; lia. Qed.

  (** what both loops produce: the digits, times 10^n (or 10^-m), lie between the bounds *)
  Definition produced (buf : list Z) (n m : Z) : Prop :=
    good buf /\ buf <> [] /\ 0 <= n <= 9 /\ 0 <= m /\ (n = 0 \/ m = 0) /\ L * 10 ^ m <= decimal buf * 10 ^ n * one <= P * 10 ^ m.

  Lemma int_digits_spec fuel : forall n p1 p2 buf dexp k, (1 <= n -> n < Z.of_nat fuel) -> 0 <= n <= k -> k <= 10 -> 0 < Z.of_nat fuel ->
    0 <= p1 < 10 ^ n -> 0 <= p2 < one -> P = (decimal buf * 10 ^ n + p1) * one + p2 -> delta < p1 * one + p2 ->
    (1 <= n -> 10 ^ (n - 1) * one <= P) -> good buf -> (buf = [] -> 1 <= n /\ 10 ^ (n - 1) <= p1) -> Z.of_nat (length buf) = k - n ->
    exists buf' res, int_digits fuel n p1 p2 (if n =? 0 then 0 else 10 ^ (n - 1)) ne dist delta buf dexp = Ret (buf', res) /\
      match res with
      | Some de' => exists n', de' = dexp + n' /\ produced buf' n' 0 /\ Z.of_nat (length buf') <= k
      | None => P = decimal buf' * one + p2 /\ delta < p2 /\ good buf' /\ buf' <> [] /\ Z.of_nat (length buf') = k
      end.
  Proof using HL HLW HWP HP Hne.
    pose proof one_pos as H1.
    induction fuel as [|fuel IH]; intros n p1 p2 buf dexp k Hf Hn Hk Hf0 Hp1 Hp2 HPe Hrest Hpow Hgood Hfst Hlen; [lia|].
    cbn [int_digits]. destruct (Z.ltb_spec 0 n) as [Hn0|Hn0].
    - destruct (Z.eqb_spec n 0); [lia|]. assert (0 < 10 ^ (n - 1)) as HT by (apply Z.pow_pos_nonneg; lia).
      assert (10 ^ n = 10 * 10 ^ (n - 1)) as ET. { replace n with (n - 1 + 1) at 1 by lia. rewrite Z.pow_add_r by lia. change (10 ^ 1) with 10. lia. }
      destruct (Z.eqb_spec (10 ^ (n - 1)) 0); [lia|].
      specialize (Hpow ltac:(lia)).
      pose proof (Z.div_mod p1 (10 ^ (n - 1)) ltac:(lia)) as Ed. pose proof (Z.mod_pos_bound p1 (10 ^ (n - 1)) ltac:(lia)) as Er.
      set (d := p1 / 10 ^ (n - 1)) in *. set (r := p1 mod 10 ^ (n - 1)) in *. set (T := 10 ^ (n - 1)) in *. clearbody d r.
      assert (0 <= d <= 9) as Hd by nia.
      assert (buf = [] -> 1 <= d) as Hd1. { intros Eb. destruct (Hfst Eb) as [_ G]. nia. }
      rewrite jassert_le by lia. cbn [obind].
      rewrite !Z.shiftl_mul_pow2 by lia.
      assert (0 <= decimal buf) as HB. { clear - Hgood. destruct Hgood as [Hd _]. revert Hd. induction buf as [|c buf IH] using rev_ind; [done|]. intros H. apply Forall_app in H as [H1 H2].
        rewrite decimal_snoc. specialize (IH H1). inversion H2; subst. unfold digit in *. lia. }
      set (B := decimal buf) in *.
      assert (0 <= B * (10 * T) * one) as HB2 by (apply Z.mul_nonneg_nonneg; nia).
      assert (P = B * (10 * T) * one + d * T * one + r * one + p2) as HP2 by (rewrite HPe, ET, Ed; ring).
      assert (0 <= d * T * one) as HB3 by (apply Z.mul_nonneg_nonneg; nia). assert (0 <= r * one) as HB4 by nia.
      rewrite (u64_id (r * one)) by lia. rewrite (u64_id (r * one + p2)) by lia. rewrite (u64_id (T * one)) by nia.
      destruct (Z.leb_spec (r * one + p2) delta) as [Hs|Hs].
      + destruct (grisu2_round_spec buf d (r * one + p2) dist delta (T * one)) as (d' & E & Hd' & Hx); try lia.
        rewrite E. cbn [obind]. eexists _, _. split; [done|]. exists (n - 1). split; [done|]. split.
        * split; [apply good_snoc; [done|lia|lia]|]. split; [by destruct buf|]. split; [lia|]. split; [lia|]. split; [by right|].
          rewrite decimal_snoc. change (10 ^ 0) with 1. fold T B. rewrite !Z.mul_1_r.
          replace ((B * 10 + (48 + d' - 48)) * T * one) with (B * (10 * T) * one + d' * (T * one)) by ring.
          rewrite Z.mul_sub_distr_r in Hx. assert (d' * (T * one) <= d * (T * one)) by (apply Z.mul_le_mono_nonneg_r; nia).
          replace (d * T * one) with (d * (T * one)) in * by ring. lia.
        * rewrite app_length. cbn [length]. lia.
      + destruct (IH (n - 1) r p2 (buf ++ [48 + d]) dexp k) as (buf' & res & E & H); try lia; try done.
        * rewrite HPe, decimal_snoc, Ed, ET. fold B T. replace (48 + d - 48) with d by lia. ring.
        * intros. apply Z.le_trans with (T * one); [|done]. apply Z.mul_le_mono_nonneg_r; [lia|]. apply Z.pow_le_mono_r; lia.
        * by apply good_snoc.
        * intros Eb. by destruct buf.
        * rewrite app_length. cbn [length]. lia.
        * exists buf', res. split; [|done]. rewrite <- E. f_equal. destruct (Z.eqb_spec (n - 1) 0) as [En|En].
          -- subst T. by rewrite En.
          -- subst T. replace (n - 1) with (n - 1 - 1 + 1) at 1 by lia. rewrite Z.pow_add_r by lia. change (10 ^ 1) with 10. by rewrite Z.div_mul by lia.
    - assert (n = 0) as -> by lia. change (10 ^ 0) with 1 in *. assert (p1 = 0) as -> by lia.
      eexists _, _. split; [done|]. cbn. split; [lia|]. split; [lia|]. split; [done|]. split; [intros ->; destruct (Hfst eq_refl); lia|lia].
  Qed.

  Lemma frac_digits_spec fuel : forall m p2 buf dexp, 0 <= m -> 18 < m + Z.of_nat fuel -> m + Z.of_nat fuel <= 20 -> 0 <= p2 < one ->
    P * 10 ^ m = decimal buf * one + p2 -> delta * 10 ^ m < p2 -> 0 < delta -> good buf -> buf <> [] ->
    exists buf' m', frac_digits fuel m p2 ne (dist * 10 ^ m) (delta * 10 ^ m) buf dexp = Ret (buf', dexp - m') /\
      produced buf' 0 m' /\ m < m' /\ delta * 10 ^ (m' - 1) < one /\ Z.of_nat (length buf') = Z.of_nat (length buf) + (m' - m).
  Proof using HL HLW HWP HP Hne.
    pose proof one_pos as H1. assert (one <= 1152921504606846976) as H2. { change 1152921504606846976 with (2 ^ 60). apply Z.pow_le_mono_r; lia. }
    induction fuel as [|fuel IH]; intros m p2 buf dexp Hm Hf1 Hf2 Hp2 HPe Hrest Hdelta Hgood Hne'.
    { exfalso. assert (10 ^ 19 <= 10 ^ m) by (apply Z.pow_le_mono_r; lia). change (10 ^ 19) with 10000000000000000000 in *. nia. }
    cbn [frac_digits]. rewrite jassert_le by lia. cbn [obind]. rewrite (u64_id (p2 * 10)) by lia.
    rewrite shiftr_div by lia. rewrite Z.shiftl_mul_pow2 by lia. rewrite Z.mul_1_l. rewrite (u64_id one) by lia. rewrite land_mod by lia.
    pose proof (Z.div_mod (p2 * 10) one ltac:(lia)) as Ed. pose proof (Z.mod_pos_bound (p2 * 10) one ltac:(lia)) as Er.
    set (d := (p2 * 10) / one) in *. set (r := (p2 * 10) mod one) in *. clearbody d r.
    assert (0 <= d <= 9) as Hd by nia. rewrite jassert_le by lia. cbn [obind].
    assert (10 ^ (m + 1) = 10 ^ m * 10) as ET by (rewrite Z.pow_add_r by lia; reflexivity).
    assert (0 < 10 ^ m) as HT by (apply Z.pow_pos_nonneg; lia).
    assert (0 <= dist * 10 ^ m <= delta * 10 ^ m) as Hdd by nia.
    rewrite (u64_id (delta * 10 ^ m * 10)), (u64_id (dist * 10 ^ m * 10)) by lia.
    assert (P * 10 ^ (m + 1) = (decimal buf * 10 + d) * one + r) as HP' by (rewrite ET; lia).
    destruct (Z.leb_spec r (delta * 10 ^ m * 10)) as [Hs|Hs].
    - destruct (grisu2_round_spec buf d r (dist * 10 ^ m * 10) (delta * 10 ^ m * 10) one) as (d' & E & Hd' & Hx); try lia.
      rewrite E. cbn [obind]. exists (buf ++ [48 + d']), (m + 1). split; [done|]. split; [|split; [lia|split; [|rewrite app_length; cbn [length]; lia]]].
      + split; [apply good_snoc; [done|lia|done]|]. split; [by destruct buf|]. split; [lia|]. split; [lia|]. split; [by left|].
        rewrite decimal_snoc. change (10 ^ 0) with 1. rewrite Z.mul_1_r. rewrite HP'. replace (48 + d' - 48) with d' by lia.
        assert (d' * one <= d * one) by nia. assert (L * 10 ^ (m + 1) = (decimal buf * 10 + d) * one + r - delta * 10 ^ m * 10) as -> by lia. lia.
      + replace (m + 1 - 1) with m by lia. lia.
    - destruct (IH (m + 1) r (buf ++ [48 + d]) dexp) as (buf' & m' & E & Hpr & Hmm & Hdl & Hlen); try lia.
      + rewrite decimal_snoc. lia.
      + by apply good_snoc.
      + by destruct buf.
      + exists buf', m'. split; [|split; [done|split; [lia|split; [done|rewrite app_length in Hlen; cbn [length] in Hlen; lia]]]].
        rewrite <- E. f_equal; lia.
  Qed.

  Lemma find_pow10_spec n : 0 < n < 4294967296 -> exists k, find_largest_pow10 n = (10 ^ (k - 1), k) /\ 1 <= k <= 10 /\ 10 ^ (k - 1) <= n < 10 ^ k.
  Proof.
    intros Hn. unfold find_largest_pow10.
    destruct (Z.leb_spec 1000000000 n); [exists 10; change (10 ^ (10 - 1)) with 1000000000; change (10 ^ 10) with 10000000000; split; [done|lia]|].
    destruct (Z.leb_spec 100000000 n); [exists 9; change (10 ^ (9 - 1)) with 100000000; change (10 ^ 9) with 1000000000; split; [done|lia]|].
    destruct (Z.leb_spec 10000000 n); [exists 8; change (10 ^ (8 - 1)) with 10000000; change (10 ^ 8) with 100000000; split; [done|lia]|].
    destruct (Z.leb_spec 1000000 n); [exists 7; change (10 ^ (7 - 1)) with 1000000; change (10 ^ 7) with 10000000; split; [done|lia]|].
    destruct (Z.leb_spec 100000 n); [exists 6; change (10 ^ (6 - 1)) with 100000; change (10 ^ 6) with 1000000; split; [done|lia]|].
    destruct (Z.leb_spec 10000 n); [exists 5; change (10 ^ (5 - 1)) with 10000; change (10 ^ 5) with 100000; split; [done|lia]|].
    destruct (Z.leb_spec 1000 n); [exists 4; change (10 ^ (4 - 1)) with 1000; change (10 ^ 4) with 10000; split; [done|lia]|].
    destruct (Z.leb_spec 100 n); [exists 3; change (10 ^ (3 - 1)) with 100; change (10 ^ 3) with 1000; split; [done|lia]|].
    destruct (Z.leb_spec 10 n); [exists 2; change (10 ^ (2 - 1)) with 10; change (10 ^ 2) with 100; split; [done|lia]|].
    exists 1. change (10 ^ (1 - 1)) with 1. change (10 ^ 1) with 10. split; [done|lia].
  Qed.

  Lemma digit_gen_spec dexp e : e = - ne -> one <= P -> L < W -> W < P -> P <= 10 ^ 16 * delta ->
    exists buf n m, grisu2_digit_gen dexp (Diy L e) (Diy W e) (Diy P e) = Ret (buf, dexp + n - m) /\ produced buf n m /\ m <= 19 /\ (length buf <= 17)%nat.
  Proof using HL HLW HWP HP Hne.
    intros -> HoneP HLW' HWP' Hratio. pose proof one_pos as H1. unfold grisu2_digit_gen. cbn [df de].
    rewrite jassert_le by lia. cbn [obind]. rewrite jassert_le by lia. cbn [obind].
    unfold diy_sub. cbn [df de]. rewrite Z.eqb_refl. cbn [jassert obind]. rewrite jassert_le by lia. cbn [obind]. rewrite jassert_le by lia. cbn [obind df].
    rewrite (u64_id delta), (u64_id dist) by lia. rewrite Z.opp_involutive. rewrite shiftr_div, Z.shiftl_mul_pow2 by lia. rewrite Z.mul_1_l.
    assert (one <= 1152921504606846976) as H2. { change 1152921504606846976 with (2 ^ 60). apply Z.pow_le_mono_r; lia. }
    assert (4294967296 <= one) as H3. { change 4294967296 with (2 ^ 32). apply Z.pow_le_mono_r; lia. }
    rewrite (u64_id one) by lia. rewrite land_mod by lia.
    pose proof (Z.div_mod P one ltac:(lia)) as Ed. pose proof (Z.mod_pos_bound P one ltac:(lia)) as Er.
    set (p1 := P / one) in *. set (p2 := P mod one) in *.
    assert (1 <= p1 < 4294967296) as Hp1. { subst p1. split; [apply Z.div_le_lower_bound; lia|]. apply Z.div_lt_upper_bound; [lia|]. nia. }
    assert (u32 p1 = p1) as -> by (unfold u32; apply Z.mod_small; lia). clearbody p1 p2.
    rewrite jassert_lt by lia. cbn [obind]. destruct (find_pow10_spec p1) as (k & -> & Hk & Hpk); [lia|].
    destruct (int_digits_spec 11 k p1 p2 [] dexp k) as (buf & res & E & H); try lia; try done.
    - change (decimal []) with 0. lia.
    - intros _. nia.
    - split; [constructor|done].
    - cbn. lia.
    - destruct (Z.eqb_spec k 0); [lia|]. rewrite E. cbn [obind]. destruct res as [de'|].
      + destruct H as (n' & -> & Hp & Hl). exists buf, n', 0. rewrite Z.sub_0_r. split; [done|]. split; [done|]. split; [lia|]. apply Nat2Z.inj_le. lia.
      + destruct H as (HPe & Hgt & Hg & Hnb & Hl). rewrite jassert_lt by lia. cbn [obind].
        destruct (frac_digits_spec 20 0 p2 buf dexp) as (buf' & m' & E' & Hp & Hm & Hdl & Hl'); try lia; try done.
        change (10 ^ 0) with 1 in E'. rewrite !Z.mul_1_r in E'. rewrite E'. exists buf', 0, m'. rewrite Z.add_0_r. split; [done|]. split; [done|].
        assert (k - 1 + (m' - 1) < 16) as Hb.
        { apply (Z.pow_lt_mono_r_iff 10); [lia|lia|]. rewrite Z.pow_add_r by lia.
          assert (0 < 10 ^ (k - 1)) by (apply Z.pow_pos_nonneg; lia). assert (0 < 10 ^ (m' - 1)) by (apply Z.pow_pos_nonneg; lia).
          apply Z.mul_lt_mono_pos_r with (p := delta); [lia|]. apply Z.lt_le_trans with P; [|done].
          apply Z.lt_le_trans with (10 ^ (k - 1) * one); [|nia].
          replace (10 ^ (k - 1) * 10 ^ (m' - 1) * delta) with (10 ^ (k - 1) * (delta * 10 ^ (m' - 1))) by ring. by apply Z.mul_lt_mono_pos_l. }
        split; [lia|]. apply Nat2Z.inj_le. lia.
  Qed.
End Gen.
