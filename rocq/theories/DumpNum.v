(** * The serializer of JsonText.v against the grammar of JsonGrammar.v: integers and doubles. *)
From stdpp Require Import tactics list.
From Verif Require Import Base Floats JsonText.
From Verif Require Import FloatBase JsonGrammar LexFacts DecFloat NumFacts GrisuFacts GrisuDigits GrisuProps.
From Coq Require Import ZArith Reals Psatz.
From Flocq Require Import Core.Core.
From stdpp Require Import list.
Local Open Scope Z_scope.

Lemma dec_from_eq m l : dec_from m l = m * 10 ^ Z.of_nat (length l) + decimal l.
Proof.
  unfold decimal. revert m. induction l as [|c l IH] using rev_ind; intros m; [cbn; lia|].
  unfold dec_from in *. rewrite !fold_left_app, app_length. cbn [fold_left length]. rewrite IH.
  rewrite Nat2Z.inj_add. change (Z.of_nat 1) with 1. rewrite Z.pow_add_r by lia. change (10 ^ 1) with 10. lia.
Qed.
Lemma decimal_cat a b : decimal (a ++ b) = decimal a * 10 ^ Z.of_nat (length b) + decimal b.
Proof. change (decimal (a ++ b)) with (dec_from 0 (a ++ b)). rewrite dec_from_app, dec_from_eq. reflexivity. Qed.
Lemma decimal_cons c l : decimal (c :: l) = (c - 48) * 10 ^ Z.of_nat (length l) + decimal l.
Proof. change (c :: l) with ([c] ++ l). by rewrite decimal_cat. Qed.
Lemma decimal_lt l : digits l -> 0 <= decimal l < 10 ^ Z.of_nat (length l).
Proof.
  induction 1 as [|c l Hc Hl IH]; [cbn; lia|]. rewrite decimal_cons. unfold digit in Hc. cbn [length]. rewrite Nat2Z.inj_succ, Z.pow_succ_r by lia. nia.
Qed.
Lemma decimal_ge c l : digits (c :: l) -> c <> 48 -> 10 ^ Z.of_nat (length l) <= decimal (c :: l).
Proof.
  intros H Hc. inversion H as [|? ? H1 H2]; subst. unfold digit in H1. rewrite decimal_cons. pose proof (decimal_lt l H2). nia.
Qed.
Lemma decimal_zeros n : decimal (replicate n 48) = 0.
Proof. induction n; [done|]. cbn [replicate]. rewrite decimal_cons, IHn. lia. Qed.
Lemma digits_zeros n : digits (replicate n 48).
Proof. apply Forall_replicate. unfold digit. lia. Qed.

Ltac dgs := repeat (apply Forall_cons_2; [first [assumption|unfold digit; lia|unfold digit; zdiv]|]); apply Forall_nil_2.

(** ** Integers *)
Lemma int_chars_spec fuel : forall x acc, 0 < x < 100 ^ Z.of_nat fuel ->
  exists c ds, int_chars fuel x acc = Ret (c :: ds ++ acc) /\ digits (c :: ds) /\ c <> 48 /\ decimal (c :: ds) = x.
Proof.
  induction fuel as [|fuel IH]; intros x acc Hx; [cbn in Hx; lia|]. rewrite Nat2Z.inj_succ, Z.pow_succ_r in Hx by lia.
  cbn [int_chars]. destruct (Z.leb_spec 100 x).
  - destruct (IH (x / 100) ((48 + x mod 100 / 10) :: (48 + x mod 100 mod 10) :: acc)) as (c & ds & E & Hd & Hc & Ev); [zdiv|].
    exists c, (ds ++ [48 + x mod 100 / 10; 48 + x mod 100 mod 10]). rewrite E. split; [by rewrite <- app_assoc|].
    assert (digit (48 + x mod 100 / 10) /\ digit (48 + x mod 100 mod 10)) as [D1 D2] by (unfold digit; split; zdiv).
    split; [|split; [done|]].
    + change (digits ((c :: ds) ++ [48 + x mod 100 / 10; 48 + x mod 100 mod 10])). apply Forall_app_2; [done|]. dgs.
    + change (decimal ((c :: ds) ++ [48 + x mod 100 / 10; 48 + x mod 100 mod 10]) = x). rewrite decimal_cat, Ev. cbn [length].
      change (10 ^ Z.of_nat 2) with 100. rewrite decimal_cons. cbn [length]. change (10 ^ Z.of_nat 1) with 10. unfold decimal. cbn [fold_left]. zdiv.
  - destruct (Z.leb_spec 10 x).
    + exists (48 + x / 10), [48 + x mod 10]. split; [done|]. split; [dgs|]. split; [zdiv|].
      unfold decimal. cbn [fold_left]. zdiv.
    + exists (48 + x), []. split; [done|]. split; [dgs|]. split; [lia|]. unfold decimal. cbn [fold_left]. lia.
Qed.
Lemma count_digits_spec fuel : forall x n, 0 < x < 10000 ^ Z.of_nat fuel ->
  exists k, count_digits fuel x n = Ret (n + k) /\ 0 <= k /\ 10 ^ k <= x < 10 ^ (k + 1).
Proof.
  induction fuel as [|fuel IH]; intros x n Hx; [cbn in Hx; lia|]. rewrite Nat2Z.inj_succ, Z.pow_succ_r in Hx by lia.
  cbn [count_digits].
  destruct (Z.ltb_spec x 10); [exists 0; rewrite Z.add_0_r; split; [done|]; cbn; lia|].
  destruct (Z.ltb_spec x 100); [exists 1; split; [done|]; cbn; lia|].
  destruct (Z.ltb_spec x 1000); [exists 2; split; [done|]; cbn; lia|].
  destruct (Z.ltb_spec x 10000); [exists 3; split; [done|]; cbn; lia|].
  destruct (IH (x / 10000) (n + 4)) as (k & E & Hk & Hb); [zdiv|].
  exists (k + 4). rewrite E. split; [f_equal; lia|]. split; [lia|]. replace (k + 4 + 1) with (k + 1 + 4) by lia. rewrite (Z.pow_add_r 10 k 4), (Z.pow_add_r 10 (k + 1) 4) by lia.
  change (10 ^ 4) with 10000. generalize dependent (10 ^ k). generalize dependent (10 ^ (k + 1)). intros p q Hpq. zdiv.
Qed.
Lemma pow_between k l x : 0 <= k -> 0 <= l -> 10 ^ k <= x < 10 ^ (k + 1) -> 10 ^ l <= x < 10 ^ (l + 1) -> k = l.
Proof.
  intros Hk Hl [A1 A2] [B1 B2].
  assert (k < l + 1) by (apply (Z.pow_lt_mono_r_iff 10); lia). assert (l < k + 1) by (apply (Z.pow_lt_mono_r_iff 10); lia). lia.
Qed.
Lemma dump_digits x : 0 < x < 2 ^ 64 ->
  exists n c ds, count_digits 6 x 1 = Ret n /\ int_chars 11 x [] = Ret (c :: ds) /\ digits (c :: ds) /\ c <> 48 /\ decimal (c :: ds) = x /\
    Z.of_nat (length (c :: ds)) = n /\ (length (c :: ds) <= 20)%nat.
Proof.
  intros Hx. change (2 ^ 64) with 18446744073709551616 in Hx.
  destruct (int_chars_spec 11 x []) as (c & ds & E1 & Hd & Hc & Ev). { change (100 ^ Z.of_nat 11) with 10000000000000000000000. lia. }
  destruct (count_digits_spec 6 x 1) as (k & E2 & Hk & Hb). { change (10000 ^ Z.of_nat 6) with 1000000000000000000000000. lia. }
  rewrite app_nil_r in E1. exists (1 + k), c, ds. split; [done|]. split; [done|]. split; [done|]. split; [done|]. split; [done|].
  pose proof (decimal_lt _ Hd) as L1. pose proof (decimal_ge _ _ Hd Hc) as L2. rewrite Ev in L1, L2. cbn [length] in *. rewrite Nat2Z.inj_succ in *. unfold Z.succ in *.
  assert (k = Z.of_nat (length ds)) as -> by (apply (pow_between k (Z.of_nat (length ds)) x); lia). split; [lia|].
  destruct (le_lt_dec (length ds) 19); [lia|]. assert (10 ^ 20 <= 10 ^ Z.of_nat (length ds)) as L3 by (apply Z.pow_le_mono_r; lia).
  change (10 ^ 20) with 100000000000000000000 in L3. lia.
Qed.
Lemma dump_unsigned x : 0 <= x < 2 ^ 64 -> exists t, dump_integer x = Ret t /\ number t (JUns x).
Proof.
  intros Hx. unfold dump_integer. destruct (Z.eqb_spec x 0) as [->|H0].
  { eexists. split; [done|]. exact (num_nat [48] int_zero eq_refl). }
  destruct (Z.ltb_spec x 0); [lia|]. destruct (dump_digits x) as (n & c & ds & -> & -> & Hd & Hc & Ev & El & _); [lia|]. cbn [obind].
  destruct (Z.eqb_spec (Z.of_nat (length (c :: ds))) n); [|done]. eexists. split; [done|]. cbn [app].
  rewrite <- Ev. inversion Hd; subst. constructor; [by constructor|lia].
Qed.
Lemma dump_negative x : - 2 ^ 63 <= x < 0 -> exists t, dump_integer x = Ret t /\ number t (JInt x).
Proof.
  intros Hx. change (2 ^ 63) with 9223372036854775808 in *. unfold dump_integer. destruct (Z.eqb_spec x 0) as [->|H0]; [lia|].
  destruct (Z.ltb_spec x 0); [|lia]. destruct (dump_digits (- (x + 1) + 1)) as (n & c & ds & -> & -> & Hd & Hc & Ev & El & _).
  { change (2 ^ 64) with 18446744073709551616. lia. } cbn [obind].
  destruct (Z.eqb_spec (Z.of_nat (length (c :: ds))) n); [|done]. eexists. split; [done|]. cbn [app].
  replace x with (- decimal (c :: ds)) by lia. inversion Hd; subst. constructor; [by constructor|]. change (2 ^ 63) with 9223372036854775808. lia.
Qed.

(** ** Doubles *)
Lemma append_exponent_spec e : -1000 < e < 1000 -> exists t, append_exponent e = Ret t /\ exponent (101 :: t) e /\ (length t <= 4)%nat.
Proof.
  intros He. unfold append_exponent. rewrite !jassert_lt by lia. cbn [obind].
  assert (forall k, 0 <= k < 1000 -> exists ds, (if k <? 10 then [48; 48 + k]
                else if k <? 100 then [48 + k / 10; 48 + k mod 10]
                else [48 + k / 100; 48 + k mod 100 / 10; 48 + k mod 100 mod 10]) = ds /\ digits ds /\ ds <> [] /\ decimal ds = k /\ (length ds <= 3)%nat) as Hk.
  { intros k Hk. eexists. split; [reflexivity|]. destruct (Z.ltb_spec k 10); [|destruct (Z.ltb_spec k 100)].
    all: (split; [dgs|]); (split; [done|]); split; [|cbn; lia]; unfold decimal; cbn [fold_left]; zdiv. }
  destruct (Z.ltb_spec e 0).
  - destruct (Hk (- e)) as (ds & -> & Hd & Hn & Ev & Hl); [lia|]. eexists. split; [done|]. split; [|cbn; lia].
    replace e with (- decimal ds) by lia. apply exp_minus; [set_solver|done..].
  - destruct (Hk e) as (ds & -> & Hd & Hn & Ev & Hl); [lia|]. eexists. split; [done|]. split; [|cbn; lia].
    rewrite <- Ev. apply JsonGrammar.exp_plus; [set_solver|done..].
Qed.
(** the text in four layouts, and its value *)
Definition layout (t : list Z) (m e : Z) : Prop :=
  exists i ft f et k, t = i ++ ft ++ et /\ integer_part i /\ fraction ft f /\ exponent et k /\ (ft <> [] \/ et <> []) /\
    (IZR (decimal (i ++ f)) * pow10 (k - Z.of_nat (length f)) = IZR m * pow10 e)%R.
Lemma pow10_add a b : pow10 (a + b) = (pow10 a * pow10 b)%R.
Proof. unfold pow10. apply bpow_plus. Qed.
Lemma integer_nonzero c l : digits (c :: l) -> c <> 48 -> integer_part (c :: l).
Proof. intros H Hc. inversion H; subst. by constructor. Qed.
Lemma integer_app c l r : digits (c :: l) -> c <> 48 -> digits r -> integer_part ((c :: l) ++ r).
Proof. intros H Hc Hr. cbn [app]. inversion H; subst. constructor; [done..|]. by apply Forall_app_2. Qed.
Lemma pow10_0 : pow10 0 = 1%R.
Proof. reflexivity. Qed.
Lemma pow10_1 : pow10 1 = 10%R.
Proof. rewrite pow10_nonneg by lia. reflexivity. Qed.

(** digits[000].0 *)
Lemma layout_int c l e : digits (c :: l) -> c <> 48 -> 0 <= e ->
  layout ((c :: l) ++ replicate (Z.to_nat e) 48 ++ [46; 48]) (decimal (c :: l)) e.
Proof.
  intros Hd Hc He. exists ((c :: l) ++ replicate (Z.to_nat e) 48), [46; 48], [48], [], 0. rewrite app_nil_r, <- app_assoc. split; [done|].
  split; [apply integer_app; [done..|apply digits_zeros]|].
  split; [apply frac_some; [dgs|done]|]. split; [constructor|]. split; [by left|].
  rewrite decimal_app, decimal_cat, decimal_zeros, replicate_length, Z2Nat.id, Z.add_0_r by lia. replace (48 - 48) with 0 by lia. rewrite Z.add_0_r.
  cbn [length]. change (Z.of_nat 1) with 1. rewrite !mult_IZR, <- pow10_nonneg by lia. rewrite <- pow10_1.
  rewrite !Rmult_assoc, <- pow10_add. replace (1 + (0 - 1)) with 0 by lia. rewrite pow10_0. ring.
Qed.
(** dig.its *)
Lemma layout_point c l n : digits (c :: l) -> c <> 48 -> (0 < n < length (c :: l))%nat ->
  layout (take n (c :: l) ++ 46 :: drop n (c :: l)) (decimal (c :: l)) (Z.of_nat n - Z.of_nat (length (c :: l))).
Proof.
  intros Hd Hc Hn.
  assert (take n (c :: l) ++ drop n (c :: l) = c :: l) as Etd by apply take_drop.
  assert (length (drop n (c :: l)) = (length (c :: l) - n)%nat) as Eld by (rewrite drop_length; lia).
  assert (digits (take n (c :: l)) /\ digits (drop n (c :: l))) as [Dt Dd] by (split; [by apply Forall_take|by apply Forall_drop]).
  exists (take n (c :: l)), (46 :: drop n (c :: l)), (drop n (c :: l)), [], 0. rewrite app_nil_r. split; [done|].
  split. { destruct n as [|n']; [lia|]. cbn [take] in *. by apply integer_nonzero. }
  split. { apply frac_some; [done|]. intros Q. rewrite Q in Eld. change (length []) with 0%nat in Eld. lia. }
  split; [constructor|]. split; [by left|]. rewrite Etd, Eld. do 2 f_equal. lia.
Qed.
(** 0.[000]digits *)
Lemma layout_small l n : digits l -> l <> [] ->
  layout (48 :: 46 :: replicate n 48 ++ l) (decimal l) (- Z.of_nat (length l) - Z.of_nat n).
Proof.
  intros Hd Hn. exists [48], (46 :: replicate n 48 ++ l), (replicate n 48 ++ l), [], 0. rewrite app_nil_r. split; [done|]. split; [constructor|].
  split. { apply frac_some; [apply Forall_app_2; [apply digits_zeros|done]|]. intros Q. apply app_eq_nil in Q as [_ Q]. done. }
  split; [constructor|]. split; [by left|]. rewrite !decimal_cat, decimal_zeros, app_length, replicate_length.
  change (decimal [48]) with 0. rewrite !Z.mul_0_l, !Z.add_0_l. do 2 f_equal. lia.
Qed.
(** d.igitse+123 *)
Lemma layout_exp c l et e : digits (c :: l) -> c <> 48 -> exponent (101 :: et) e ->
  layout ((if Z.of_nat (length (c :: l)) =? 1 then c :: l else take 1 (c :: l) ++ 46 :: drop 1 (c :: l)) ++ 101 :: et) (decimal (c :: l)) (e - Z.of_nat (length l)).
Proof.
  intros Hd Hc He. destruct (Z.eqb_spec (Z.of_nat (length (c :: l))) 1) as [El|El].
  - destruct l as [|? ?]; [|cbn [length] in El; lia]. exists [c], [], [], (101 :: et), e. split; [done|]. split; [by apply integer_nonzero|].
    split; [constructor|]. split; [done|]. split; [by right|]. rewrite app_nil_r. reflexivity.
  - destruct l as [|d l]; [done|]. inversion Hd as [|? ? Hd1 Hd2]; subst.
    exists [c], (46 :: d :: l), (d :: l), (101 :: et), e. cbn [take drop app]. split; [done|].
    split; [apply integer_nonzero; [dgs|done]|]. split; [by apply frac_some|]. split; [done|]. split; [by left|]. done.
Qed.
Lemma format_spec c l e : digits (c :: l) -> c <> 48 -> (length (c :: l) <= 17)%nat -> -400 <= e <= 400 ->
  exists t, format_buffer (c :: l) e (-4) 15 = Ret t /\ layout t (decimal (c :: l)) e /\ (length t <= 24)%nat.
Proof.
  intros Hd Hc Hl He.
  unfold format_buffer. change (jassert (-4 <? 0)) with (Ret tt : outcome unit). change (jassert (0 <? 15)) with (Ret tt : outcome unit). cbn [obind].
  cbv zeta. set (k := Z.of_nat (length (c :: l))). set (n := k + e).
  destruct ((k <=? n) && (n <=? 15)) eqn:C1.
  { apply andb_prop in C1 as [H1%Z.leb_le H2%Z.leb_le]. eexists. split; [reflexivity|]. replace (n - k) with e by lia. split; [apply layout_int; [done..|lia]|].
    rewrite !app_length, replicate_length. change (length [46; 48]) with 2%nat. lia. }
  destruct ((0 <? n) && (n <=? 15)) eqn:C2.
  { apply andb_prop in C2 as [H1%Z.ltb_lt H2%Z.leb_le]. apply andb_false_iff in C1 as [C1|C1]; apply Z.leb_gt in C1; [|lia].
    rewrite jassert_lt by lia. cbn [obind]. eexists. split; [reflexivity|]. split.
    - pose proof (layout_point c l (Z.to_nat n) Hd Hc ltac:(lia)) as Q. by replace (Z.of_nat (Z.to_nat n) - Z.of_nat (length (c :: l))) with e in Q by lia.
    - rewrite app_length. change (length (46 :: ?x)) with (S (length x)). rewrite take_length, drop_length. lia. }
  destruct ((-4 <? n) && (n <=? 0)) eqn:C3.
  { apply andb_prop in C3 as [H1%Z.ltb_lt H2%Z.leb_le]. eexists. split; [reflexivity|]. split.
    - pose proof (layout_small (c :: l) (Z.to_nat (- n)) Hd ltac:(done)) as Q. by replace (- Z.of_nat (length (c :: l)) - Z.of_nat (Z.to_nat (- n))) with e in Q by lia.
    - change (length (48 :: 46 :: ?x)) with (S (S (length x))). rewrite app_length, replicate_length. lia. }
  destruct (append_exponent_spec (n - 1)) as (et & -> & Hx & Le); [lia|]. cbn [obind]. eexists. split; [reflexivity|]. split.
  - pose proof (layout_exp c l et (n - 1) Hd Hc Hx) as Q. replace (n - 1 - Z.of_nat (length l)) with e in Q; [exact Q|]. subst n k. cbn [length]. lia.
  - rewrite app_length. change (length (101 :: ?x)) with (S (length x)). destruct (k =? 1); [lia|]. rewrite app_length. change (take 1 (c :: l)) with [c]. change (drop 1 (c :: l)) with l. cbn [length] in *. lia.
Qed.

Lemma nearest_neg r m e : nearest_double false r (S754_finite false m e) -> nearest_double true (-1 * r) (S754_finite true m e).
Proof.
  intros (V & F & Ev & _). split; [done|]. split; [done|]. split; [|done].
  replace (-1 * r)%R with (- r)%R by ring. rewrite round_NE_opp, <- Ev. cbn [val]. unfold val. cbn. reflexivity || (rewrite <- F2R_Zopp; reflexivity).
Qed.

Lemma layout_number neg t m e x : layout t m e -> nearest_double neg ((if neg then - 1 else 1) * (IZR m * pow10 e))%R x ->
  number ((if neg then [45] else []) ++ t) (JFlt x).
Proof.
  intros (i & ft & f & et & k & -> & Hi & Hf & He & Hn & Ev) Hx. apply (num_real neg i ft f et k x Hi Hf He).
  - intros -> ->. by destruct Hn.
  - rewrite Rmult_assoc, Ev. exact Hx.
Qed.

Theorem dump_float_full x : SpecFloat.valid_binary 53 1024 x = true -> is_finite_sf x = true ->
  exists t, dump_float x = Ret t /\ number t (JFlt x) /\ (length t <= 25)%nat.
Proof.
  intros V F. unfold dump_float. rewrite F. unfold to_chars. destruct x as [neg| | |neg m e]; try done.
  - exists ((if neg then [45] else []) ++ [48; 46; 48]). split; [by destruct neg|]. split; [|by destruct neg; cbn; lia].
    apply (num_real neg [48] [46; 48] [48] [] 0); [constructor|apply frac_some; [dgs|done]|constructor|done|].
    split; [done|]. split; [done|]. split; [|done]. change (decimal ([48] ++ [48])) with 0. rewrite Rmult_0_r, Rmult_0_l, round_0; [reflexivity|typeclasses eauto].
  - assert (SpecFloat.valid_binary 53 1024 (S754_finite false m e) = true) as V' by exact V.
    destruct (grisu2_spec m e V') as (buf & dexp & E & Hd & (c & l & -> & Hc) & Hl & He & Hx).
    destruct (format_spec c l dexp Hd Hc Hl He) as (t & Ef & Hlay & Lt).
    exists ((if neg then [45] else []) ++ t). split.
    + destruct neg; cbn [obind]; rewrite E; cbn [obind]; rewrite jassert_le by lia; cbn [obind]; rewrite Ef; cbn [obind]; rewrite decide_True by (cbn; lia); done.
    + split; [|destruct neg; cbn; lia]. eapply layout_number; [exact Hlay|]. destruct neg; [by apply nearest_neg|]. by rewrite Rmult_1_l.
Qed.
Theorem dump_float_spec x : SpecFloat.valid_binary 53 1024 x = true -> is_finite_sf x = true ->
  exists t, dump_float x = Ret t /\ number t (JFlt x).
Proof. intros V F. destruct (dump_float_full x V F) as (t & E & H & _). by exists t. Qed.
