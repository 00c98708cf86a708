(** * The lexer of JsonText.v against the grammar of JsonGrammar.v: white space, strings, literals. *)
From Verif Require Import JsonText.
From Verif Require Import JsonGrammar.
From stdpp Require Import list.
From Coq Require Import ZArith Lia.
Local Open Scope Z_scope.

Ltac zdiv := Z.to_euclidean_division_equations; lia.

(** ** White space *)
Lemma is_space_spec c : is_space c = true <-> c ∈ [32; 9; 10; 13].
Proof.
  unfold is_space. rewrite !elem_of_cons, elem_of_nil.
  destruct (Z.eqb_spec c 32), (Z.eqb_spec c 9), (Z.eqb_spec c 10), (Z.eqb_spec c 13); cbn; split; intros; try tauto; try lia; try done.
Qed.
Lemma skip_ws_white w l : white w -> skip_ws (w ++ l) = skip_ws l.
Proof.
  induction 1 as [|c w Hc _ IH]; [done|]. cbn. apply is_space_spec in Hc. by rewrite Hc.
Qed.
Lemma skip_ws_sound l : exists w, l = w ++ skip_ws l /\ white w.
Proof.
  induction l as [|c l (w & E & Hw)]; [by exists []; split; [|constructor]|].
  cbn. destruct (is_space c) eqn:Es.
  - exists (c :: w). split; [cbn; by rewrite <- E|]. constructor; [|done]. by apply is_space_spec.
  - exists []. split; [done|constructor].
Qed.
Lemma skip_ws_len l : (length (skip_ws l) <= length l)%nat.
Proof. destruct (skip_ws_sound l) as (w & E & _). rewrite E at 2. rewrite app_length. lia. Qed.
Lemma white_app w1 w2 : white w1 -> white w2 -> white (w1 ++ w2).
Proof. apply Forall_app_2. Qed.

(** ** Bytes of code points *)
Lemma lor_add k m a b : 0 <= k -> a = m * 2 ^ k -> 0 <= b < 2 ^ k -> Z.lor a b = a + b.
Proof.
  intros Hk -> Hb.
  assert (Z.land (m * 2 ^ k) b = 0) as El; [|by rewrite Z.add_nocarry_lxor, Z.lxor_lor by exact El].
  apply Z.bits_inj'. intros i Hi. rewrite Z.land_spec, Z.bits_0.
  destruct (Z.ltb_spec i k).
  - rewrite Z.mul_pow2_bits_low by lia. done.
  - destruct (Z.eq_dec b 0) as [->|Hz]; [by rewrite Z.bits_0, andb_false_r|].
    rewrite (Z.bits_above_log2 b i), andb_false_r; [done|lia|]. apply Z.log2_lt_pow2; [lia|].
    apply Z.lt_le_trans with (2 ^ k); [lia|]. by apply Z.pow_le_mono_r.
Qed.
Lemma land63 z : Z.land z 63 = z mod 64.
Proof. exact (Z.land_ones z 6 ltac:(lia)). Qed.
Lemma codepoint_utf8 cp : scalar cp -> codepoint_bytes cp = utf8 cp.
Proof.
  intros Hs. unfold codepoint_bytes, utf8, scalar in *.
  assert (forall z, Z.shiftr z 6 = z / 64) as E6 by (intros z; rewrite Z.shiftr_div_pow2 by lia; reflexivity).
  assert (forall z, Z.shiftr z 12 = z / 4096) as E12 by (intros z; rewrite Z.shiftr_div_pow2 by lia; reflexivity).
  assert (forall z, Z.shiftr z 18 = z / 262144) as E18 by (intros z; rewrite Z.shiftr_div_pow2 by lia; reflexivity).
  rewrite E6, E12, E18, !land63.
  assert (forall z, Z.lor 128 (z mod 64) = 128 + z mod 64) as El.
  { intros z. apply (lor_add 6 2); [lia|lia|]. apply Z.mod_pos_bound. lia. }
  rewrite !El. destruct (Z.ltb_spec cp 128); [done|].
  destruct (Z.leb_spec cp 2047), (Z.ltb_spec cp 2048); try lia.
  { f_equal. apply (lor_add 5 6); [lia|lia|]. change (2 ^ 5) with 32. zdiv. }
  destruct (Z.leb_spec cp 65535), (Z.ltb_spec cp 65536); try lia.
  { f_equal. apply (lor_add 4 14); [lia|lia|]. change (2 ^ 4) with 16. zdiv. }
  f_equal. apply (lor_add 3 30); [lia|lia|]. change (2 ^ 3) with 8. zdiv.
Qed.

(** ** Characters which stand for themselves *)
Definition spread (c : Z) (rs : list (Z * Z)) (bs : list Z) : Prop := following c = Some rs /\ Forall2 (fun b r => in_rng b r = true) bs rs.
Lemma in_rng_spec b lo hi : in_rng b (lo, hi) = true <-> lo <= b <= hi.
Proof. unfold in_rng. cbn. rewrite andb_true_iff, !Z.leb_le. lia. Qed.
Lemma following_cases c rs : following c = Some rs ->
  (32 <= c <= 127 /\ rs = []) \/ (194 <= c <= 223 /\ rs = [(128, 191)]) \/ (c = 224 /\ rs = [(160, 191); (128, 191)])
  \/ ((225 <= c <= 236 \/ c = 238 \/ c = 239) /\ rs = [(128, 191); (128, 191)]) \/ (c = 237 /\ rs = [(128, 159); (128, 191)])
  \/ (c = 240 /\ rs = [(144, 191); (128, 191); (128, 191)]) \/ (241 <= c <= 243 /\ rs = [(128, 191); (128, 191); (128, 191)])
  \/ (c = 244 /\ rs = [(128, 143); (128, 191); (128, 191)]).
Proof.
  unfold following. intros E.
  repeat match type of E with
  | context [?a <=? ?b] => destruct (Z.leb_spec a b); cbn in E
  | context [?a =? ?b] => destruct (Z.eqb_spec a b); cbn in E
  end; try discriminate; injection E as <-; first [left; split; [lia|done]|right]; first [left; split; [lia|done]|right];
    first [left; split; [lia|done]|right]; first [left; split; [lia|done]|right]; first [left; split; [lia|done]|right];
    first [left; split; [lia|done]|right]; first [left; split; [lia|done]|right]; try (split; [lia|done]).
Qed.
Lemma cons_eq {A} (a b : A) l m : a = b -> l = m -> a :: l = b :: m.
Proof. by intros -> ->. Qed.
Lemma following_sound c rs bs : spread c rs bs -> exists cp, scalar cp /\ 32 <= cp /\ (cp = c \/ 127 < cp) /\ c :: bs = utf8 cp.
Proof.
  intros [Ef Hb]. apply following_cases in Ef.
  assert (forall cp, scalar cp -> 127 < cp -> c :: bs = utf8 cp ->
    exists cp, scalar cp /\ 32 <= cp /\ (cp = c \/ 127 < cp) /\ c :: bs = utf8 cp) as K.
  { intros cp H1 H2 H3. exists cp. repeat split; [done|lia|by right|done]. }
  destruct Ef as [[Hc ->]|[[Hc ->]|[[Hc ->]|[[Hc ->]|[[Hc ->]|[[Hc ->]|[[Hc ->]|[Hc ->]]]]]]]];
    repeat match goal with H : Forall2 _ _ (_ :: _) |- _ => inversion H; subst; clear H end;
    repeat match goal with H : in_rng _ _ = true |- _ => apply in_rng_spec in H end;
    repeat match goal with H : Forall2 _ _ [] |- _ => inversion H; subst; clear H end.
  { exists c. unfold scalar, utf8. destruct (Z.ltb_spec c 128); [|lia]. repeat split; [lia|lia|by left]. }
  1: apply (K ((c - 192) * 64 + (x - 128))).
  4: apply (K ((224 - 224) * 4096 + (x - 128) * 64 + (x0 - 128))).
  7: apply (K ((c - 224) * 4096 + (x - 128) * 64 + (x0 - 128))).
  10: apply (K ((237 - 224) * 4096 + (x - 128) * 64 + (x0 - 128))).
  13: apply (K ((240 - 240) * 262144 + (x - 128) * 4096 + (x0 - 128) * 64 + (x1 - 128))).
  16: apply (K ((c - 240) * 262144 + (x - 128) * 4096 + (x0 - 128) * 64 + (x1 - 128))).
  19: apply (K ((244 - 240) * 262144 + (x - 128) * 4096 + (x0 - 128) * 64 + (x1 - 128))).
  all: try (unfold scalar; lia).
  all: unfold utf8;
    repeat match goal with |- context [?a <? ?b] => destruct (Z.ltb_spec a b); try lia end; repeat (apply cons_eq; [zdiv|]); reflexivity.
Qed.
Lemma following_complete cp : scalar cp -> 32 <= cp -> exists c rs bs, utf8 cp = c :: bs /\ spread c rs bs /\ (c = cp \/ 127 < c).
Proof.
  intros Hs H32. unfold utf8, scalar, spread in *.
  assert (forall b lo hi (bs : list Z) rs, lo <= b <= hi -> Forall2 (fun b r => in_rng b r = true) bs rs ->
    Forall2 (fun b r => in_rng b r = true) (b :: bs) ((lo, hi) :: rs)) as Kc.
  { intros. constructor; [by apply in_rng_spec|done]. }
  assert (Forall2 (fun b r => in_rng b r = true) ([] : list Z) []) as Kn by constructor.
  assert (forall c, 128 <= c -> following c = 
    (if c <=? 223 then if 194 <=? c then Some [(128, 191)] else None else if c =? 224 then Some [(160, 191); (128, 191)]
     else if c =? 237 then Some [(128, 159); (128, 191)] else if c <=? 239 then Some [(128, 191); (128, 191)]
     else if c =? 240 then Some [(144, 191); (128, 191); (128, 191)] else if c <=? 243 then Some [(128, 191); (128, 191); (128, 191)]
     else if c =? 244 then Some [(128, 143); (128, 191); (128, 191)] else None)) as Ef.
  { intros c Hc. unfold following.
    repeat match goal with
    | |- context [?a <=? ?b] => destruct (Z.leb_spec a b); cbn; try lia
    | |- context [?a =? ?b] => destruct (Z.eqb_spec a b); cbn; try lia
    end; reflexivity. }
  destruct (Z.ltb_spec cp 128).
  { exists cp, [], []. split; [done|]. split; [|by left]. split; [|done]. unfold following.
    destruct (Z.leb_spec 32 cp), (Z.leb_spec cp 127); try lia. done. }
  destruct (Z.ltb_spec cp 2048).
  { eexists _, _, _. split; [reflexivity|]. split; [|right; zdiv]. split.
    - rewrite Ef by zdiv. destruct (Z.leb_spec (192 + cp / 64) 223); [|zdiv]. destruct (Z.leb_spec 194 (192 + cp / 64)); [|zdiv]. reflexivity.
    - apply Kc; [zdiv|done]. }
  assert (forall c (bs : list Z) rs, 127 < c -> following c = Some rs -> Forall2 (fun b r => in_rng b r = true) bs rs ->
    exists c0 rs bs0, c :: bs = c0 :: bs0 /\ (following c0 = Some rs /\ Forall2 (fun b r => in_rng b r = true) bs0 rs) /\ (c0 = cp \/ 127 < c0)) as Kx.
  { intros c bs rs Hc H3 H4. exists c, rs, bs. repeat split; [done|done|lia]. }
  destruct (Z.ltb_spec cp 65536).
  { assert (following (224 + cp / 4096) = following (224 + cp / 4096)) as E by done. rewrite Ef in E at 2 by zdiv.
    destruct (Z.leb_spec (224 + cp / 4096) 223); [zdiv|].
    destruct (Z.eqb_spec (224 + cp / 4096) 224); [|destruct (Z.eqb_spec (224 + cp / 4096) 237); [|destruct (Z.leb_spec (224 + cp / 4096) 239); [|zdiv]]];
      (eapply Kx; [zdiv|exact E|]); (apply Kc; [zdiv|]); (apply Kc; [zdiv|done]). }
  assert (following (240 + cp / 262144) = following (240 + cp / 262144)) as E by done. rewrite Ef in E at 2 by zdiv.
  destruct (Z.leb_spec (240 + cp / 262144) 223); [zdiv|].
  destruct (Z.eqb_spec (240 + cp / 262144) 224); [zdiv|].
  destruct (Z.eqb_spec (240 + cp / 262144) 237); [zdiv|].
  destruct (Z.leb_spec (240 + cp / 262144) 239); [zdiv|].
  destruct (Z.eqb_spec (240 + cp / 262144) 240); [|destruct (Z.leb_spec (240 + cp / 262144) 243); [|destruct (Z.eqb_spec (240 + cp / 262144) 244); [|zdiv]]];
    (eapply Kx; [zdiv|exact E|]); (apply Kc; [zdiv|]); (apply Kc; [zdiv|]); (apply Kc; [zdiv|done]).
Qed.

(** ** Hexadecimal digits *)
Lemma hex_val_spec c i : hex_val c = Some i <-> hex c i.
Proof.
  unfold hex_val. split.
  - intros E.
    repeat match type of E with context [?a <=? ?b] => destruct (Z.leb_spec a b); cbn in E end; try discriminate; injection E as <-.
    all: try (replace c with (48 + (c - 48)) at 1 by lia; constructor; lia).
    all: try (replace c with (55 + (c - 55)) at 1 by lia; constructor; lia).
    all: replace c with (87 + (c - 87)) at 1 by lia; constructor; lia.
  - destruct 1;
    repeat match goal with |- context [?a <=? ?b] => destruct (Z.leb_spec a b); cbn; try lia end; f_equal; lia.
Qed.
Lemma get_codepoint_sound c1 c2 c3 c4 cp : get_codepoint c1 c2 c3 c4 = Some cp -> hex4 [c1; c2; c3; c4] cp.
Proof.
  unfold get_codepoint.
  destruct (hex_val c1) eqn:E1; [|done]. destruct (hex_val c2) eqn:E2; [|done].
  destruct (hex_val c3) eqn:E3; [|done]. destruct (hex_val c4) eqn:E4; [|done].
  intros [= <-]. constructor; by apply hex_val_spec.
Qed.
Lemma hex4_range l cp : hex4 l cp -> 0 <= cp < 65536.
Proof. destruct 1 as [? ? ? ? ? ? ? ? H1 H2 H3 H4]. destruct H1, H2, H3, H4; lia. Qed.
Lemma hex4_inv l cp : hex4 l cp -> exists c1 c2 c3 c4, l = [c1; c2; c3; c4] /\ get_codepoint c1 c2 c3 c4 = Some cp.
Proof.
  destruct 1 as [c1 c2 c3 c4 a b c d H1 H2 H3 H4]. exists c1, c2, c3, c4. split; [done|].
  apply hex_val_spec in H1, H2, H3, H4. unfold get_codepoint. by rewrite H1, H2, H3, H4.
Qed.
Lemma simple_escape_spec e c : simple_escape e = Some c <->
  (e, c) ∈ [(34, 34); (92, 92); (47, 47); (98, 8); (102, 12); (110, 10); (114, 13); (116, 9)].
Proof.
  unfold simple_escape. split.
  - intros E. repeat match type of E with context [?a =? ?b] => destruct (Z.eqb_spec a b); [injection E as <-; subst; set_solver|] end. done.
  - rewrite !elem_of_cons, elem_of_nil. intros H.
    repeat (destruct H as [[= -> ->]|H]; [reflexivity|]). done.
Qed.

(** ** Strings *)
Lemma scan_string_sound : forall n l buf b r, (length l <= n)%nat -> scan_string l buf = Some (b, r) ->
  exists u bs, l = u ++ 34 :: r /\ characters u bs /\ b = buf ++ bs.
Proof.
  induction n as [|n IH]; intros l buf b r Hn E.
  { destruct l; [done|cbn in Hn; lia]. }
  assert (forall t bs l', character t bs -> l = t ++ l' -> (length l' < length l)%nat -> scan_string l' (buf ++ bs) = Some (b, r) ->
    exists u bs, l = u ++ 34 :: r /\ characters u bs /\ b = buf ++ bs) as K.
  { intros t bs l' Hc El Hl E'. apply IH in E' as (u & bs' & -> & Hu & ->); [|lia].
    exists (t ++ u), (bs ++ bs'). rewrite El, <- !app_assoc. split; [done|]. split; [by constructor|done]. }
  destruct l as [|c l]; [done|]. cbn in Hn. cbn [scan_string] in E.
  destruct (Z.eqb_spec c 34) as [->|H34].
  { injection E as <- <-. exists [], []. split; [done|]. split; [constructor|]. by rewrite app_nil_r. }
  destruct (Z.eqb_spec c 92) as [->|H92].
  - destruct l as [|e l]; [done|]. destruct (simple_escape e) as [b0|] eqn:Ee.
    { apply (K [92; e] [b0] l); [by apply char_escape, simple_escape_spec|done|cbn; lia|done]. }
    destruct (Z.eqb_spec e 117) as [->|]; [|done]. clear Ee.
    destruct l as [|h1 [|h2 [|h3 [|h4 l]]]]; try done.
    destruct (get_codepoint h1 h2 h3 h4) as [cp1|] eqn:E1; [|done]. apply get_codepoint_sound in E1. pose proof (hex4_range _ _ E1).
    destruct ((55296 <=? cp1) && (cp1 <=? 56319)) eqn:Ehi.
    + destruct l as [|s [|u [|g1 [|g2 [|g3 [|g4 l]]]]]]; try done.
      destruct ((s =? 92) && (u =? 117)) eqn:Esu; [|done].
      destruct (get_codepoint g1 g2 g3 g4) as [cp2|] eqn:E2; [|done]. apply get_codepoint_sound in E2.
      destruct ((56320 <=? cp2) && (cp2 <=? 57343)) eqn:Elo; [|done].
      apply andb_true_iff in Ehi as [A1%Z.leb_le A2%Z.leb_le]. apply andb_true_iff in Elo as [A3%Z.leb_le A4%Z.leb_le].
      apply andb_true_iff in Esu as [->%Z.eqb_eq ->%Z.eqb_eq].
      revert E. rewrite Z.shiftl_mul_pow2 by lia. change (2 ^ 10) with 1024.
      replace (cp1 * 1024 + cp2 - 56613888) with (65536 + (cp1 - 55296) * 1024 + (cp2 - 56320)) by lia.
      rewrite codepoint_utf8 by (unfold scalar; lia). intros E.
      apply (K (92 :: 117 :: [h1; h2; h3; h4] ++ 92 :: 117 :: [g1; g2; g3; g4]) _ l) in E; [done| |done|cbn; lia].
      apply char_pair; [done|done|lia|lia].
    + destruct ((56320 <=? cp1) && (cp1 <=? 57343)) eqn:Elo; [done|].
      assert (scalar cp1) as Hs.
      { unfold scalar. apply andb_false_iff in Ehi as [H1%Z.leb_gt|H1%Z.leb_gt]; [lia|].
        apply andb_false_iff in Elo as [H2%Z.leb_gt|H2%Z.leb_gt]; lia. }
      rewrite codepoint_utf8 in E by done.
      apply (K (92 :: 117 :: [h1; h2; h3; h4]) _ l) in E; [done| |done|cbn; lia]. by apply char_unicode.
  - destruct (following c) as [rs|] eqn:Ef; [|done].
    assert (forall bs l', spread c rs bs -> l = bs ++ l' -> scan_string l' (buf ++ c :: bs) = Some (b, r) ->
      exists u bs, c :: l = u ++ 34 :: r /\ characters u bs /\ b = buf ++ bs) as K'.
    { intros bs l' Hsp El E'. apply (K (c :: bs) (c :: bs) l'); [|by rewrite El|cbn; rewrite El, app_length; lia|done].
      destruct (following_sound _ _ _ Hsp) as (cp & Hs & H32 & Hcp & ->). apply char_plain; [done|done| |]; lia. }
    destruct rs as [|r1 [|r2 [|r3 [|]]]]; [| | | |done].
    + apply (K' [] l); [by split; [|constructor]|done|done].
    + destruct l as [|b1 l]; [done|]. destruct (in_rng b1 r1) eqn:R1; [|done].
      apply (K' [b1] l); [split; [done|by repeat constructor]|done|done].
    + destruct l as [|b1 [|b2 l]]; try done. destruct (in_rng b1 r1) eqn:R1; [|done]. destruct (in_rng b2 r2) eqn:R2; [|done].
      apply (K' [b1; b2] l); [split; [done|by repeat constructor]|done|done].
    + destruct l as [|b1 [|b2 [|b3 l]]]; try done. destruct (in_rng b1 r1) eqn:R1; [|done]. destruct (in_rng b2 r2) eqn:R2; [|done].
      destruct (in_rng b3 r3) eqn:R3; [|done].
      apply (K' [b1; b2; b3] l); [split; [done|by repeat constructor]|done|done].
Qed.

Lemma scan_character t bs l buf : character t bs -> scan_string (t ++ l) buf = scan_string l (buf ++ bs).
Proof.
  destruct 1 as [cp Hs H32 H34 H92|e c He|h cp Hh Hs|h1 h2 hi lo H1 H2 R1 R2].
  - destruct (following_complete cp Hs H32) as (c & rs & bs & -> & [Ef Hb] & Hc).
    cbn [app scan_string]. destruct (Z.eqb_spec c 34); [lia|]. destruct (Z.eqb_spec c 92); [lia|]. rewrite Ef.
    assert (length rs <= 3)%nat as L.
    { apply following_cases in Ef. destruct Ef as [[_ ->]|[[_ ->]|[[_ ->]|[[_ ->]|[[_ ->]|[[_ ->]|[[_ ->]|[_ ->]]]]]]]]; cbn; lia. }
    destruct rs as [|r1 [|r2 [|r3 [|]]]]; [| | | |cbn in L; lia].
    + inversion Hb; subst. done.
    + inversion Hb as [|b1 ? ? ? R1 Hb1]; subst. inversion Hb1; subst. cbn [app]. by rewrite R1.
    + inversion Hb as [|b1 ? ? ? R1 Hb1]; subst. inversion Hb1 as [|b2 ? ? ? R2 Hb2]; subst. inversion Hb2; subst.
      cbn [app]. by rewrite R1, R2.
    + inversion Hb as [|b1 ? ? ? R1 Hb1]; subst. inversion Hb1 as [|b2 ? ? ? R2 Hb2]; subst.
      inversion Hb2 as [|b3 ? ? ? R3 Hb3]; subst. inversion Hb3; subst. cbn [app]. by rewrite R1, R2, R3.
  - apply simple_escape_spec in He. cbn [app scan_string]. rewrite He. done.
  - apply hex4_inv in Hh as (c1 & c2 & c3 & c4 & -> & Eh). cbn [app scan_string].
    change (simple_escape 117) with (@None Z). change (92 =? 34) with false. change (92 =? 92) with true. change (117 =? 117) with true. cbn iota.
    rewrite Eh. unfold scalar in Hs.
    destruct (Z.leb_spec 55296 cp), (Z.leb_spec cp 56319); cbn [andb]; try lia;
    destruct (Z.leb_spec 56320 cp), (Z.leb_spec cp 57343); cbn [andb]; try lia; by rewrite codepoint_utf8.
  - apply hex4_inv in H1 as (c1 & c2 & c3 & c4 & -> & Eh1). apply hex4_inv in H2 as (g1 & g2 & g3 & g4 & -> & Eh2).
    cbn [app scan_string]. change (simple_escape 117) with (@None Z). change (92 =? 34) with false. change (92 =? 92) with true.
    change (117 =? 117) with true. cbn iota. rewrite Eh1, Eh2.
    destruct (Z.leb_spec 55296 hi), (Z.leb_spec hi 56319); cbn [andb]; try lia.
    destruct (Z.leb_spec 56320 lo), (Z.leb_spec lo 57343); cbn [andb]; try lia.
    rewrite Z.shiftl_mul_pow2 by lia. change (2 ^ 10) with 1024.
    replace (hi * 1024 + lo - 56613888) with (65536 + (hi - 55296) * 1024 + (lo - 56320)) by lia.
    rewrite codepoint_utf8 by (unfold scalar; lia). done.
Qed.
Lemma scan_string_complete u bs r : characters u bs -> forall buf, scan_string (u ++ 34 :: r) buf = Some (buf ++ bs, r).
Proof.
  induction 1 as [|t b t' b' Hc _ IH]; intros buf.
  - cbn. by rewrite app_nil_r.
  - rewrite <- app_assoc, (scan_character _ _ _ _ Hc), IH, <- app_assoc. done.
Qed.

(** ** Literals *)
Lemma scan_literal_sound lit t l t' r : scan_literal lit t l = (t', r) -> t' <> TErr -> t' = t /\ l = lit ++ r.
Proof.
  revert l. induction lit as [|a lit IH]; intros l; cbn.
  - by intros [= <- <-].
  - destruct l as [|c l]; [by intros [= <- _]|]. destruct (Z.eqb_spec c a) as [->|]; [|by intros [= <- _]].
    intros E Ht. destruct (IH _ E Ht) as [-> ->]. done.
Qed.
Lemma scan_literal_complete lit t r : scan_literal lit t (lit ++ r) = (t, r).
Proof. induction lit as [|a lit IH]; [done|]. cbn. by rewrite Z.eqb_refl. Qed.
