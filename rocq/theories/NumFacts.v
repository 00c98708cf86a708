(** * The number scanner of JsonText.v against the grammar of JsonGrammar.v. *)
From Verif Require Import Base Floats JsonText.
From Verif Require Import FloatBase JsonGrammar LexFacts DecFloat.
From stdpp Require Import list.
From Coq Require Import ZArith Lia.
Local Open Scope Z_scope.

Lemma is_digit_spec c : is_digit c = true <-> digit c.
Proof. unfold is_digit, digit. destruct (Z.leb_spec 48 c), (Z.leb_spec c 57); cbn; split; intros; try done; lia. Qed.
Lemma is_digit_false c : is_digit c = false <-> ~ digit c.
Proof. rewrite <- is_digit_spec. by destruct (is_digit c). Qed.
Lemma is_exp_spec c : is_exp c = true <-> c ∈ [101; 69].
Proof. unfold is_exp. rewrite !elem_of_cons, elem_of_nil. destruct (Z.eqb_spec c 101), (Z.eqb_spec c 69); cbn; split; intros; try done; try tauto; lia. Qed.
Lemma is_exp_false c : is_exp c = false <-> ~ c ∈ [101; 69].
Proof. rewrite <- is_exp_spec. by destruct (is_exp c). Qed.

(** ** What may follow in each state *)
Definition frac_exp (u : list Z) (ty ty' : num_type) : Prop :=
  exists ft f et e, u = ft ++ et /\ fraction ft f /\ exponent et e /\ ty' = (if decide (ft = [] /\ et = []) then ty else NFlt).
Definition tail (st : num_state) (ty : num_type) (u : list Z) (ty' : num_type) : Prop :=
  match st with
  | NAny2 => digits u /\ ty' = ty
  | NSign => digits u /\ u <> [] /\ ty' = ty
  | NExp => (exists e, exponent (101 :: u) e) /\ ty' = ty
  | NDec2 => ty = NFlt -> ty' = NFlt /\ exists ds et e, u = ds ++ et /\ digits ds /\ exponent et e
  | NDec1 => ty = NFlt -> ty' = NFlt /\ exists ds et e, u = ds ++ et /\ digits ds /\ ds <> [] /\ exponent et e
  | NZero => frac_exp u ty ty'
  | NAny1 => exists ds v, u = ds ++ v /\ digits ds /\ frac_exp v ty ty'
  | NMinus => exists i v, u = i ++ v /\ integer_part i /\ frac_exp v ty ty'
  end.

Lemma exponent_any c u e : c ∈ [101; 69] -> exponent (101 :: u) e -> exponent (c :: u) e.
Proof. intros Hc H. inversion H; subst; by constructor. Qed.
Lemma digits_cons c u : digit c -> digits u -> digits (c :: u).
Proof. by constructor. Qed.

Lemma num_loop_sound : forall l st ty buf ty' b r, num_loop st ty buf l = Some (ty', b, r) ->
  exists u, l = u ++ r /\ b = buf ++ u /\ tail st ty u ty'.
Proof.
  assert (forall ty, frac_exp [] ty ty) as FN.
  { intros ty. exists [], [], [], 0. split; [done|]. split; [constructor|]. split; [constructor|]. by rewrite decide_True. }
  assert (forall c u e ty, c ∈ [101; 69] -> exponent (101 :: u) e -> frac_exp (c :: u) ty NFlt) as FE.
  { intros c u e ty Hc He. exists [], [], (c :: u), e. split; [done|]. split; [constructor|]. split; [by eapply exponent_any|]. by rewrite decide_False by naive_solver. }
  assert (forall u ty, tail NDec1 NFlt u NFlt -> frac_exp (46 :: u) ty NFlt) as FD.
  { intros u ty H. destruct (H eq_refl) as (_ & ds & et & e & -> & Hd & Hn & He).
    exists (46 :: ds), ds, et, e. split; [done|]. split; [by constructor|]. split; [done|]. by rewrite decide_False by naive_solver. }
  induction l as [|c l IH]; intros st ty buf ty' b r H.
  { exists []. destruct st; cbn in H; try done; injection H as -> <- <-; (split; [done|]); (split; [by rewrite app_nil_r|]); cbn [tail].
    - apply FN.
    - exists [], []. split; [done|]. split; [constructor|apply FN].
    - intros ->. split; [done|]. exists [], [], 0. split; [done|]. split; constructor.
    - split; [constructor|done]. }
  assert (forall st ty, num_loop st ty (buf ++ [c]) l = Some (ty', b, r) -> exists u, c :: l = (c :: u) ++ r /\ b = buf ++ c :: u /\ tail st ty u ty') as IH'.
  { intros st' t' E. destruct (IH _ _ _ _ _ _ E) as (u & -> & -> & T). exists u. by rewrite <- app_assoc. }
  assert (Some (ty, buf, c :: l) = Some (ty', b, r) -> c :: l = [] ++ r /\ b = buf ++ [] /\ ty' = ty) as ST.
  { intros [= -> <- <-]. by rewrite app_nil_r. }
  destruct st; cbn [num_loop] in H.
  - (* NMinus *)
    destruct (Z.eqb_spec c 48) as [->|N0].
    { destruct (IH' _ _ H) as (u & E1 & E2 & T). exists (48 :: u). split; [done|]. split; [done|]. exists [48], u. repeat split; [constructor|done]. }
    destruct (is_digit c) eqn:Ed; [|done]. destruct (IH' _ _ H) as (u & E1 & E2 & T). exists (c :: u). split; [done|]. split; [done|].
    destruct T as (ds & v & -> & Hd & F). exists (c :: ds), v. repeat split; [|done]. constructor; try done. by apply is_digit_spec.
  - (* NZero *)
    destruct (Z.eqb_spec c 46) as [->|N0].
    { destruct (IH' _ _ H) as (u & E1 & E2 & T). exists (46 :: u). split; [done|]. split; [done|]. cbn. destruct (T eq_refl) as [-> _]. by apply FD. }
    destruct (is_exp c) eqn:Ee.
    { destruct (IH' _ _ H) as (u & E1 & E2 & [[e T] ->]). exists (c :: u). split; [done|]. split; [done|]. eapply FE; [by apply is_exp_spec|done]. }
    destruct (ST H) as (E1 & E2 & ->). exists []. split; [done|]. split; [done|]. apply FN.
  - (* NAny1 *)
    destruct (is_digit c) eqn:Ed.
    { destruct (IH' _ _ H) as (u & E1 & E2 & T). exists (c :: u). split; [done|]. split; [done|].
      destruct T as (ds & v & -> & Hd & F). exists (c :: ds), v. repeat split; [|done]. apply digits_cons; [by apply is_digit_spec|done]. }
    destruct (Z.eqb_spec c 46) as [->|N0].
    { destruct (IH' _ _ H) as (u & E1 & E2 & T). exists (46 :: u). split; [done|]. split; [done|]. cbn. destruct (T eq_refl) as [-> _].
      exists [], (46 :: u). repeat split; [constructor|]. by apply FD. }
    destruct (is_exp c) eqn:Ee.
    { destruct (IH' _ _ H) as (u & E1 & E2 & [[e T] ->]). exists (c :: u). split; [done|]. split; [done|].
      exists [], (c :: u). repeat split; [constructor|]. eapply FE; [by apply is_exp_spec|done]. }
    destruct (ST H) as (E1 & E2 & ->). exists []. split; [done|]. split; [done|]. exists [], []. repeat split; [constructor|apply FN].
  - (* NDec1 *)
    destruct (is_digit c) eqn:Ed; [|done]. destruct (IH' _ _ H) as (u & E1 & E2 & T). exists (c :: u). split; [done|]. split; [done|].
    intros ->. destruct (T eq_refl) as (-> & ds & et & e & -> & Hd & He). split; [done|]. exists (c :: ds), et, e. repeat split; try done.
    apply digits_cons; [by apply is_digit_spec|done].
  - (* NDec2 *)
    destruct (is_digit c) eqn:Ed.
    { destruct (IH' _ _ H) as (u & E1 & E2 & T). exists (c :: u). split; [done|]. split; [done|].
      intros ->. destruct (T eq_refl) as (-> & ds & et & e & -> & Hd & He). split; [done|]. exists (c :: ds), et, e. repeat split; try done.
      apply digits_cons; [by apply is_digit_spec|done]. }
    destruct (is_exp c) eqn:Ee.
    { destruct (IH' _ _ H) as (u & E1 & E2 & [[e T] ->]). exists (c :: u). split; [done|]. split; [done|]. intros ->. split; [done|].
      exists [], (c :: u), e. repeat split; [constructor|]. eapply exponent_any; [by apply is_exp_spec|done]. }
    destruct (ST H) as (E1 & E2 & ->). exists []. split; [done|]. split; [done|]. intros ->. split; [done|].
    exists [], [], 0. repeat split; constructor.
  - (* NExp *)
    destruct ((c =? 43) || (c =? 45)) eqn:Es.
    { destruct (IH' _ _ H) as (u & E1 & E2 & (Hd & Hn & ->)). exists (c :: u). split; [done|]. split; [done|]. split; [|done].
      apply orb_prop in Es as [->%Z.eqb_eq| ->%Z.eqb_eq]; eexists; [apply exp_plus|apply exp_minus]; try done; rewrite !elem_of_cons; tauto. }
    destruct (is_digit c) eqn:Ed; [|done].
    destruct (IH' _ _ H) as (u & E1 & E2 & (Hd & ->)). exists (c :: u). split; [done|]. split; [done|]. split; [|done].
    eexists. apply exp_plain; [rewrite !elem_of_cons; tauto| |done]. apply digits_cons; [by apply is_digit_spec|done].
  - (* NSign *)
    destruct (is_digit c) eqn:Ed; [|done].
    destruct (IH' _ _ H) as (u & E1 & E2 & (Hd & ->)). exists (c :: u). split; [done|]. split; [done|]. repeat split; [|done].
    apply digits_cons; [by apply is_digit_spec|done].
  - (* NAny2 *)
    destruct (is_digit c) eqn:Ed.
    { destruct (IH' _ _ H) as (u & E1 & E2 & (Hd & ->)). exists (c :: u). split; [done|]. split; [done|]. split; [|done].
      apply digits_cons; [by apply is_digit_spec|done]. }
    destruct (ST H) as (E1 & E2 & ->). exists []. split; [done|]. split; [done|]. split; [constructor|done].
Qed.

(** ** Completeness: the number ends where a character follows which cannot continue it *)
Definition ends (r : list Z) : Prop := match r with [] => True | c :: _ => ~ digit c /\ c ∉ [46; 101; 69] end.

Lemma loop_digits st ty ds : digits ds -> st ∈ [NAny1; NDec2; NAny2] -> forall buf r, num_loop st ty buf (ds ++ r) = num_loop st ty (buf ++ ds) r.
Proof.
  induction 1 as [|c ds Hc _ IH]; intros Hs buf r; [by rewrite app_nil_r|].
  apply is_digit_spec in Hc. cbn [app]. replace (buf ++ c :: ds) with ((buf ++ [c]) ++ ds) by (by rewrite <- app_assoc).
  rewrite <- IH by done. rewrite !elem_of_cons, elem_of_nil in Hs.
  destruct Hs as [->|[->|[->|[]]]]; cbn [num_loop]; by rewrite Hc.
Qed.
Lemma loop_stop st ty buf r : ends r -> st ∈ [NZero; NAny1; NDec2; NAny2] -> num_loop st ty buf r = Some (ty, buf, r).
Proof.
  intros Hr Hs. rewrite !elem_of_cons, elem_of_nil in Hs. destruct r as [|c r]; [by destruct Hs as [->|[->|[->|[->|[]]]]]|].
  destruct Hr as [Hd Hc]. apply is_digit_false in Hd.
  assert (c =? 46 = false) as E1. { apply Z.eqb_neq. intros ->. apply Hc. constructor. }
  assert (is_exp c = false) as E2. { apply is_exp_false. intros H. apply Hc. by constructor. }
  destruct Hs as [->|[->|[->|[->|[]]]]]; cbn [num_loop]; by rewrite ?Hd, ?E1, ?E2.
Qed.
Lemma loop_exp st ty buf et e r : exponent et e -> et <> [] -> ends r -> st ∈ [NZero; NAny1; NDec2] ->
  num_loop st ty buf (et ++ r) = Some (NFlt, buf ++ et, r).
Proof.
  intros He Hn Hr Hs.
  assert (exists c u, et = c :: u /\ c ∈ [101; 69] /\ exponent (101 :: u) e) as (c & u & -> & Hc & Hu).
  { inversion He; subst; try done; eexists _, _; (split; [done|]); (split; [done|]); constructor; try done; rewrite !elem_of_cons; tauto. }
  assert (num_loop st ty buf ((c :: u) ++ r) = num_loop NExp NFlt (buf ++ [c]) (u ++ r)) as ->.
  { assert (~ digit c /\ c <> 46) as [E1%is_digit_false E2%Z.eqb_neq].
    { unfold digit. clear - Hc. rewrite !elem_of_cons, elem_of_nil in Hc. lia. }
    apply is_exp_spec in Hc. rewrite !elem_of_cons, elem_of_nil in Hs.
    destruct Hs as [->|[->|[->|[]]]]; cbn [num_loop app]; by rewrite ?E1, ?E2, ?Hc. }
  replace (buf ++ c :: u) with ((buf ++ [c]) ++ u) by (by rewrite <- app_assoc). generalize (buf ++ [c]). clear buf. intros buf.
  assert (NAny2 ∈ [NAny1; NDec2; NAny2]) as M by (rewrite !elem_of_cons; tauto).
  assert (NAny2 ∈ [NZero; NAny1; NDec2; NAny2]) as M' by (rewrite !elem_of_cons; tauto).
  assert (forall d ds b, digit d -> digits ds -> num_loop NSign NFlt b (d :: ds ++ r) = Some (NFlt, b ++ d :: ds, r)) as SG.
  { intros d ds b Hd Hds. cbn [num_loop]. apply is_digit_spec in Hd. rewrite Hd. rewrite loop_digits by done.
    rewrite loop_stop by done. by rewrite <- app_assoc. }
  inversion Hu; subst.
  - destruct u as [|d ds]; [done|]. match goal with H : digits (_ :: _) |- _ => inversion H as [|? ? Hd Hds]; subst end.
    cbn [num_loop app]. assert ((d =? 43) || (d =? 45) = false) as ->.
    { unfold digit in Hd. destruct (Z.eqb_spec d 43), (Z.eqb_spec d 45); try done; lia. }
    apply is_digit_spec in Hd. rewrite Hd. rewrite loop_digits by done. rewrite loop_stop by done. by rewrite <- app_assoc.
  - destruct ds as [|d ds]; [done|]. match goal with H : digits (_ :: _) |- _ => inversion H as [|? ? Hd Hds]; subst end.
    transitivity (num_loop NSign NFlt (buf ++ [43]) (d :: ds ++ r)); [done|]. rewrite SG by done. by rewrite <- app_assoc.
  - destruct ds as [|d ds]; [done|]. match goal with H : digits (_ :: _) |- _ => inversion H as [|? ? Hd Hds]; subst end.
    transitivity (num_loop NSign NFlt (buf ++ [45]) (d :: ds ++ r)); [done|]. rewrite SG by done. by rewrite <- app_assoc.
Qed.
Lemma loop_frac_exp st ty buf u ty' r : frac_exp u ty ty' -> ends r -> st ∈ [NZero; NAny1] ->
  num_loop st ty buf (u ++ r) = Some (ty', buf ++ u, r).
Proof.
  intros (ft & f & et & e & -> & Hf & He & ->) Hr Hs.
  assert (st ∈ [NZero; NAny1; NDec2] /\ st ∈ [NZero; NAny1; NDec2; NAny2]) as [S1 S2].
  { rewrite !elem_of_cons in *. tauto. }
  inversion Hf as [|ds Hd Hn]; subst.
  - cbn [app]. destruct (decide (et = [])) as [->|Ne].
    + rewrite decide_True by done. rewrite app_nil_r. by apply loop_stop.
    + rewrite decide_False by naive_solver. by eapply loop_exp.
  - rewrite decide_False by naive_solver. destruct f as [|d ds]; [done|]. inversion Hd as [|? ? H1 H2]; subst.
    assert (num_loop st ty buf (((46 :: d :: ds) ++ et) ++ r) = num_loop NDec2 NFlt (buf ++ [46; d]) (ds ++ et ++ r)) as ->.
    { apply is_digit_spec in H1. cbn [app]. rewrite <- !app_assoc. cbn [app].
      replace (buf ++ [46; d]) with ((buf ++ [46]) ++ [d]) by (by rewrite <- app_assoc).
      rewrite !elem_of_cons, elem_of_nil in Hs. destruct Hs as [->|[->|[]]]; cbn [num_loop is_digit andb]; cbn; by rewrite H1. }
    rewrite loop_digits; [|done|rewrite !elem_of_cons; tauto].
    destruct (decide (et = [])) as [->|Ne].
    + cbn [app]. rewrite app_nil_r. rewrite loop_stop; [|done|rewrite !elem_of_cons; tauto]. by rewrite <- app_assoc.
    + rewrite (loop_exp _ _ _ _ e); [|done..|rewrite !elem_of_cons; tauto]. by rewrite <- !app_assoc.
Qed.

(** ** Values of digit sequences *)
Lemma decimal_app l c : decimal (l ++ [c]) = decimal l * 10 + (c - 48).
Proof. unfold decimal. by rewrite fold_left_app. Qed.
Definition dec_from (m : Z) (l : list Z) : Z := fold_left (fun n c => n * 10 + (c - 48)) l m.
Lemma dec_from_nonneg l m : digits l -> 0 <= m -> 0 <= dec_from m l.
Proof.
  intros H. revert m. induction H as [|c l Hc _ IH]; intros m Hm; [done|]. cbn. apply IH. unfold digit in Hc. lia.
Qed.
Lemma decimal_nonneg l : digits l -> 0 <= decimal l.
Proof. intros H. by apply (dec_from_nonneg l 0). Qed.
Lemma dec_from_app m a b : dec_from m (a ++ b) = dec_from (dec_from m a) b.
Proof. unfold dec_from. by rewrite fold_left_app. Qed.

Definition no_digit (r : list Z) : Prop := match r with [] => True | c :: _ => ~ digit c end.
Lemma dec_scan_int ds : digits ds -> forall r m k, dec_scan (ds ++ r) false m k = dec_scan r false (dec_from m ds) k.
Proof.
  induction 1 as [|c ds Hc _ IH]; intros r m k; [done|]. cbn. apply is_digit_spec in Hc. rewrite Hc. by rewrite IH.
Qed.
Lemma dec_scan_frac ds : digits ds -> forall r m k, no_digit r -> dec_scan (ds ++ r) true m k = (dec_from m ds, k + Z.of_nat (length ds), r).
Proof.
  induction 1 as [|c ds Hc _ IH]; intros r m k Hr.
  - cbn [app length]. change (Z.of_nat 0) with 0. rewrite Z.add_0_r. destruct r as [|c r]; [done|]. cbn in Hr. apply is_digit_false in Hr. cbn. rewrite Hr.
    by rewrite andb_false_r.
  - cbn [app dec_scan]. apply is_digit_spec in Hc. rewrite Hc. rewrite IH by done. cbn [length]. f_equal. f_equal. lia.
Qed.
Lemma int_scan_digits ds r : digits ds -> no_digit r -> int_scan (ds ++ r) = decimal ds.
Proof. intros H N. unfold int_scan. by rewrite dec_scan_frac. Qed.
Lemma int_scan_digits' ds : digits ds -> int_scan ds = decimal ds.
Proof. intros H. rewrite <- (app_nil_r ds) at 1. by apply int_scan_digits. Qed.

Lemma integer_digits i : integer_part i -> digits i /\ i <> [] /\ exists c l, i = c :: l /\ digit c.
Proof.
  intros H. inversion H as [|d ds Hd Hn Hds]; subst.
  - assert (digit 48) by (unfold digit; lia). split; [by repeat constructor|]. split; [done|]. by exists 48, [].
  - split; [by constructor|]. split; [done|]. by exists d, ds.
Qed.
Lemma exponent_head et e : exponent et e -> et = [] \/ exists c u, et = c :: u /\ c ∈ [101; 69].
Proof. intros H. inversion H; subst; [by left|right; eauto..]. Qed.
Lemma exp_scan_spec c u e : c ∈ [101; 69] -> exponent (c :: u) e -> exp_scan u = e.
Proof.
  intros Hc H. inversion H as [|? ? _ Hd Hn|? ? _ Hd Hn|? ? _ Hd Hn]; subst.
  - destruct u as [|d ds]; [done|]. unfold exp_scan. inversion Hd as [|? ? D1 D2]; subst. pose proof D1 as D. unfold digit in D.
    destruct (Z.eqb_spec d 45); [lia|]. destruct (Z.eqb_spec d 43); [lia|]. by rewrite int_scan_digits'.
  - cbn. by rewrite int_scan_digits'.
  - cbn. by rewrite int_scan_digits'.
Qed.
Lemma strtod_spec (neg : bool) i ft f et e : integer_part i -> fraction ft f -> exponent et e ->
  strtod ((if neg then [45] else []) ++ i ++ ft ++ et) = f64_of_dec neg (decimal (i ++ f)) (e - Z.of_nat (length f)).
Proof.
  intros Hi Hf He. destruct (integer_digits i Hi) as (Di & Ni & d & l & Ed & Dd).
  assert (dec_scan (i ++ ft ++ et) false 0 0 = (decimal (i ++ f), Z.of_nat (length f), et)) as E.
  { rewrite dec_scan_int by done.
    assert (no_digit et) as N.
    { destruct (exponent_head et e He) as [->|(c & u & -> & Hc)]; [done|]. cbn. unfold digit. rewrite !elem_of_cons, elem_of_nil in Hc. lia. }
    inversion Hf as [|ds Hd Hn]; subst.
    - cbn [app length]. rewrite app_nil_r. change (Z.of_nat 0) with 0.
      destruct (exponent_head et e He) as [->|(c & u & -> & Hc)]; [done|]. cbn in N. apply is_digit_false in N. cbn [dec_scan]. rewrite N.
      destruct (Z.eqb_spec c 46) as [->|]; [by rewrite !elem_of_cons, elem_of_nil in Hc; lia|done].
    - change (dec_scan ((46 :: f) ++ et) false (dec_from 0 (d :: l)) 0) with (dec_scan (f ++ et) true (dec_from 0 (d :: l)) 0).
      rewrite dec_scan_frac by done. unfold decimal. change (fold_left _ ?a 0) with (dec_from 0 a). by rewrite dec_from_app. }
  assert ((match et with c :: r' => if is_exp c then exp_scan r' else 0 | [] => 0 end) = e) as EE.
  { destruct (exponent_head et e He) as [->|(c & u & -> & Hc)]; [by inversion He|]. pose proof Hc as Hc'. apply is_exp_spec in Hc'. rewrite Hc'.
    by eapply exp_scan_spec. }
  unfold strtod. destruct neg; cbn [app].
  - cbn [Z.eqb Pos.eqb]. rewrite E. by rewrite EE.
  - assert ((match i ++ ft ++ et with c :: l0 => if c =? 45 then (true, l0) else (false, i ++ ft ++ et) | [] => (false, i ++ ft ++ et) end) = (false, i ++ ft ++ et)) as ->.
    { rewrite Ed. cbn [app]. destruct (Z.eqb_spec d 45); [unfold digit in Dd; lia|done]. }
    rewrite E. by rewrite EE.
Qed.

(** ** Numbers *)
Definition num_token (v : json) : option token :=
  match v with JUns z => Some (TUns z) | JInt z => Some (TInt z) | JFlt x => Some (TFlt x) | _ => None end.

Lemma decimal_number_real (neg : bool) i v ty' : integer_part i -> frac_exp v (if neg then NInt else NUns) ty' ->
  let buf := (if neg then [45] else []) ++ i ++ v in
  (ty' = NFlt \/ (if neg then strtoll buf else strtoull buf) = None) -> is_finite_sf (strtod buf) = true -> number buf (JFlt (strtod buf)).
Proof.
  intros Hi (ft & f & et & e & -> & Hf & He & Ety) buf Hc Fin. subst buf.
  pose proof (integer_digits i Hi) as (Di & Ni & d & l & Ed & Dd).
  rewrite strtod_spec with (f := f) (e := e) in * by done.
  eapply num_real; try done.
  - intros -> ->. rewrite decide_True in Ety by done. subst ty'. destruct Hc as [Hc|Hc]; [by destruct neg|].
    cbn [app] in Hc. rewrite !app_nil_r in Hc. destruct neg.
    + cbn [app strtoll] in Hc. rewrite int_scan_digits' in Hc by done. destruct (Z.leb_spec (-9223372036854775808) (- decimal i)); [done|].
      change (2 ^ 63) with 9223372036854775808. lia.
    + cbn [app] in Hc. unfold strtoull in Hc. rewrite int_scan_digits' in Hc by done. destruct (Z.leb_spec (decimal i) 18446744073709551615); [done|].
      change (2 ^ 64) with 18446744073709551616. lia.
  - apply f64_of_dec_finite; [|done]. apply decimal_nonneg. apply Forall_app. split; [done|]. by inversion Hf.
Qed.
Lemma frac_exp_type v ty ty' : frac_exp v ty ty' -> ty' = ty \/ ty' = NFlt.
Proof. intros (ft & f & et & e & -> & _ & _ & ->). destruct (decide _); auto. Qed.
Lemma frac_exp_none v ty : ty <> NFlt -> frac_exp v ty ty -> v = [].
Proof. intros N (ft & f & et & e & -> & _ & _ & E). destruct (decide (ft = [] /\ et = [])) as [[-> ->]|]; done. Qed.

(** the shape of what the loop has read, for either first character *)
Lemma scan_number_text c l ty' b r : (c = 45 \/ digit c) ->
  (let '(st, ty) := if c =? 45 then (NMinus, NInt) else if c =? 48 then (NZero, NUns) else (NAny1, NUns) in num_loop st ty [c] l) = Some (ty', b, r) ->
  c :: l = b ++ r /\ exists (neg : bool) i v, b = (if neg then [45] else []) ++ i ++ v /\ integer_part i /\ frac_exp v (if neg then NInt else NUns) ty' /\ neg = (c =? 45).
Proof.
  intros Hc H. destruct (Z.eqb_spec c 45) as [->|N45].
  - apply num_loop_sound in H as (u & -> & -> & (i & v & -> & Hi & Hv)). split; [done|]. by exists true, i, v.
  - destruct Hc as [|Hc]; [done|]. destruct (Z.eqb_spec c 48) as [->|N48].
    + apply num_loop_sound in H as (u & -> & -> & Hv). split; [done|]. exists false, [48], u. repeat split; [constructor|done].
    + apply num_loop_sound in H as (u & -> & -> & (ds & v & -> & Hd & Hv)). split; [done|]. exists false, (c :: ds), v. repeat split; [by constructor|done].
Qed.
Lemma scan_number_sound c l tok r : (c = 45 \/ digit c) -> scan_number c l = (tok, r) -> tok <> TErr ->
  exists u, c :: l = u ++ r /\ u <> [] /\
    match tok with TUns z => number u (JUns z) | TInt z => number u (JInt z) | TFlt x => is_finite_sf x = true -> number u (JFlt x) | _ => False end.
Proof.
  intros Hc H NE. unfold scan_number in H.
  destruct (if c =? 45 then (NMinus, NInt) else if c =? 48 then (NZero, NUns) else (NAny1, NUns)) as [st ty] eqn:Est.
  destruct (num_loop st ty [c] l) as [[[ty' b] r']|] eqn:EL; [|by injection H as <- <-].
  pose proof (scan_number_text c l ty' b r' Hc) as T. rewrite Est in T. destruct (T EL) as (Ecl & neg & i & v & Eb & Hi & Hv & En). clear T.
  assert (b <> []) as Nb. { destruct (integer_digits i Hi) as (_ & Ni & _). rewrite Eb. destruct neg; [done|]. by destruct i. }
  assert ((strtod b = strtod b -> ty' = NFlt \/ (if neg then strtoll b else strtoull b) = None) -> exists u, c :: l = u ++ r' /\ u <> [] /\ (is_finite_sf (strtod b) = true -> number u (JFlt (strtod b)))) as FL.
  { intros C. exists b. split; [done|]. split; [done|]. intros Fin. rewrite Eb in *. eapply decimal_number_real; eauto. }
  destruct ty'.
  - assert (neg = false) as ->. { destruct (frac_exp_type _ _ _ Hv) as [E|E]; [by destruct neg|done]. }
    destruct (strtoull b) as [z|] eqn:Ez.
    + injection H as <- <-. exists b. split; [done|]. split; [done|]. apply frac_exp_none in Hv; [|done]. subst v. rewrite app_nil_r in Eb. cbn [app] in Eb. subst b.
      unfold strtoull in Ez. pose proof (integer_digits i Hi) as (Di & _ & _). rewrite int_scan_digits' in Ez by done.
      destruct (Z.leb_spec (decimal i) 18446744073709551615) as [Hle|]; [|done]. injection Ez as <-. constructor; [done|]. change (2 ^ 64) with 18446744073709551616. lia.
    + injection H as <- <-. apply FL. auto.
  - assert (neg = true) as ->. { destruct (frac_exp_type _ _ _ Hv) as [E|E]; [by destruct neg|done]. }
    destruct (strtoll b) as [z|] eqn:Ez.
    + injection H as <- <-. exists b. split; [done|]. split; [done|]. apply frac_exp_none in Hv; [|done]. subst v. rewrite app_nil_r in Eb. cbn [app] in Eb. subst b.
      unfold strtoll in Ez. pose proof (integer_digits i Hi) as (Di & _ & _). rewrite int_scan_digits' in Ez by done.
      destruct (Z.leb_spec (-9223372036854775808) (- decimal i)) as [Hle|]; [|done]. injection Ez as <-. constructor; [done|]. change (2 ^ 63) with 9223372036854775808. lia.
    + injection H as <- <-. apply FL. auto.
  - injection H as <- <-. apply FL. auto.
Qed.

Lemma scan_number_loop (neg : bool) i v ty' r : integer_part i -> frac_exp v (if neg then NInt else NUns) ty' -> ends r ->
  let b := (if neg then [45] else []) ++ i ++ v in
  exists c l, b ++ r = c :: l /\ (c = 45 \/ digit c) /\
    (let '(st, ty) := if c =? 45 then (NMinus, NInt) else if c =? 48 then (NZero, NUns) else (NAny1, NUns) in num_loop st ty [c] l) = Some (ty', b, r).
Proof.
  intros Hi Hv Hr b. subst b.
  assert (forall ty buf, integer_part i -> num_loop NMinus ty buf (i ++ v ++ r) = num_loop (if decide (i = [48]) then NZero else NAny1) ty (buf ++ i) (v ++ r)) as IM.
  { intros ty buf _. inversion Hi as [|d ds Hd Hn Hds]; subst.
    - rewrite decide_True by done. done.
    - rewrite decide_False by naive_solver. cbn [app num_loop]. apply Z.eqb_neq in Hn. rewrite Hn. apply is_digit_spec in Hd. rewrite Hd.
      rewrite loop_digits; [by rewrite <- app_assoc|done|rewrite !elem_of_cons; tauto]. }
  destruct neg.
  - exists 45, (i ++ v ++ r). split; [cbn [app]; by rewrite <- app_assoc|]. split; [by left|]. cbn [Z.eqb Pos.eqb].
    rewrite IM by done. rewrite (loop_frac_exp _ _ _ _ _ _ Hv Hr); [cbn [app]; done|]. destruct (decide _); rewrite !elem_of_cons; tauto.
  - cbn [app]. inversion Hi as [|d ds Hd Hn Hds]; subst.
    + exists 48, (v ++ r). split; [done|]. split; [right; unfold digit; lia|]. cbn [Z.eqb Pos.eqb].
      rewrite (loop_frac_exp _ _ _ _ _ _ Hv Hr); [done|]. rewrite !elem_of_cons; tauto.
    + exists d, (ds ++ v ++ r). split; [cbn [app]; by rewrite <- app_assoc|]. split; [by right|].
      destruct (Z.eqb_spec d 45); [unfold digit in Hd; lia|]. destruct (Z.eqb_spec d 48); [done|].
      rewrite loop_digits; [|done|rewrite !elem_of_cons; tauto].
      rewrite (loop_frac_exp _ _ _ _ _ _ Hv Hr); [by rewrite <- app_assoc|]. rewrite !elem_of_cons; tauto.
Qed.
Lemma scan_number_complete u v r : number u v -> ends r ->
  exists c l tok, u ++ r = c :: l /\ (c = 45 \/ digit c) /\ scan_number c l = (tok, r) /\ num_token v = Some tok /\ (forall x, v = JFlt x -> is_finite_sf x = true).
Proof.
  intros Hn Hr.
  assert (forall ty, frac_exp [] ty ty) as FN.
  { intros ty. exists [], [], [], 0. split; [done|]. split; [constructor|]. split; [constructor|]. by rewrite decide_True. }
  inversion Hn as [t Hi Hlt|t Hi Hle|neg i ft f et e x Hi Hf He Hbig Hx]; subst.
  - destruct (scan_number_loop false u [] NUns r Hi (FN _) Hr) as (c & l & E & Hc & L). rewrite app_nil_r in E, L. cbn [app] in E, L.
    exists c, l, (TUns (decimal u)). split; [done|]. split; [done|]. split; [|by split].
    unfold scan_number. destruct (if c =? 45 then (NMinus, NInt) else if c =? 48 then (NZero, NUns) else (NAny1, NUns)) as [st ty]. rewrite L.
    unfold strtoull. pose proof (integer_digits u Hi) as (Di & _ & _). rewrite int_scan_digits' by done.
    change (2 ^ 64) with 18446744073709551616 in Hlt. destruct (Z.leb_spec (decimal u) 18446744073709551615); [done|lia].
  - destruct (scan_number_loop true t [] NInt r Hi (FN _) Hr) as (c & l & E & Hc & L). rewrite app_nil_r in E, L. cbn [app] in E, L.
    exists c, l, (TInt (- decimal t)). split; [done|]. split; [done|]. split; [|by split].
    unfold scan_number. destruct (if c =? 45 then (NMinus, NInt) else if c =? 48 then (NZero, NUns) else (NAny1, NUns)) as [st ty]. rewrite L.
    unfold strtoll. pose proof (integer_digits t Hi) as (Di & _ & _). rewrite int_scan_digits' by done.
    change (2 ^ 63) with 9223372036854775808 in Hle. destruct (Z.leb_spec (-9223372036854775808) (- decimal t)); [done|lia].
  - assert (frac_exp (ft ++ et) (if neg then NInt else NUns) (if decide (ft = [] /\ et = []) then if neg then NInt else NUns else NFlt)) as Hv.
    { by exists ft, f, et, e. }
    destruct (scan_number_loop neg i (ft ++ et) _ r Hi Hv Hr) as (c & l & E & Hc & L).
    exists c, l, (TFlt x). split; [done|]. split; [done|].
    assert (digits (i ++ f)) as Dif.
    { apply Forall_app. split; [by destruct (integer_digits i Hi)|]. by inversion Hf. }
    assert (strtod ((if neg then [45] else []) ++ i ++ ft ++ et) = x) as Ex.
    { rewrite (strtod_spec neg i ft f et e) by done. apply f64_of_dec_nearest; [by apply decimal_nonneg|done]. }
    split; [|split; [done|]; intros ? [= <-]; by destruct Hx as (_ & Fin & _)].
    unfold scan_number. destruct (if c =? 45 then (NMinus, NInt) else if c =? 48 then (NZero, NUns) else (NAny1, NUns)) as [st ty]. rewrite L.
    rewrite Ex. destruct (decide (ft = [] /\ et = [])) as [[-> ->]|]; [|done].
    specialize (Hbig eq_refl eq_refl). pose proof (integer_digits i Hi) as (Di & _ & _). destruct neg.
    + cbn [app strtoll]. rewrite app_nil_r. rewrite int_scan_digits' by done.
      change (2 ^ 63) with 9223372036854775808 in Hbig. destruct (Z.leb_spec (-9223372036854775808) (- decimal i)); [lia|done].
    + cbn [app]. unfold strtoull. rewrite app_nil_r. rewrite int_scan_digits' by done.
      change (2 ^ 64) with 18446744073709551616 in Hbig. destruct (Z.leb_spec (decimal i) 18446744073709551615); [lia|done].
Qed.
