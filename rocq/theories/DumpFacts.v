(** * The serializer of JsonText.v against the grammar of JsonGrammar.v: strings, integers, doubles. *)
From stdpp Require Import tactics list.
From Verif Require Import Base Floats JsonText.
From Verif Require Import FloatBase JsonGrammar LexFacts DecFloat NumFacts GrisuFacts GrisuDigits GrisuProps.
From Coq Require Import ZArith Reals Psatz.
From Flocq Require Import Core.Core.
From stdpp Require Import list.
Local Open Scope Z_scope.

(** ** Strings *)
Definition decodes (s lo hi : Z) (next : Z) (k : Z) : bool :=
  forallb (fun i => let b := Z.of_nat i in
             match decode s 0 b with Ret (s', c) => (s' =? next) && (c =? b - k) | _ => false end) (seq (Z.to_nat lo) (Z.to_nat (hi - lo + 1))).
Lemma decodes_spec s lo hi next k b : 0 <= lo -> lo <= b <= hi -> decodes s lo hi next k = true -> decode s 0 b = Ret (next, b - k).
Proof.
  intros H0 Hb H. unfold decodes in H. rewrite forallb_forall in H. specialize (H (Z.to_nat b)).
  rewrite Z2Nat.id in H by lia. cbv zeta in H. specialize (H ltac:(apply in_seq; lia)).
  destruct (decode s 0 b) as [[s' c]| | |]; try done. apply andb_prop in H as [->%Z.eqb_eq ->%Z.eqb_eq]. done.
Qed.
Lemma decode_cont s c b next : s <> 0 -> 128 <= b < 192 -> 0 <= c < 67108864 -> decode s 0 b = Ret (next, b - 128) -> decode s c b = Ret (next, c * 64 + (b - 128)).
Proof.
  intros Hs Hb Hc. unfold decode. destruct (Z.eqb_spec s 0); [done|].
  destruct (vget utf8d (Z.to_nat b)) as [ty| | |]; cbn [obind]; try done.
  destruct (vget utf8d (Z.to_nat (256 + s * 16 + ty))) as [s'| | |]; cbn [obind]; try done.
  intros Q. assert (s' = next) as ->. { congruence. } f_equal. f_equal.
  rewrite land63. replace (b mod 64) with (b - 128) by zdiv. rewrite Z.lor_comm, Z.shiftl_mul_pow2 by lia.
  rewrite (lor_add 6 c) by (try reflexivity; lia). unfold u32. rewrite Z.mod_small; [done|]. change (2 ^ 6) with 64. lia.
Qed.
Lemma decode_first c b : decode 0 c b = decode 0 0 b.
Proof. reflexivity. Qed.
Lemma put_ok buf cs : (length buf + length cs <= 512)%nat -> put buf cs = Ret (buf ++ cs).
Proof. intros H. unfold put. by rewrite decide_True. Qed.

(** what is written for a code point *)
Definition esc (cp : Z) : list Z := if cp <? 128 then escaped cp cp else utf8 cp.
Lemma escaped_high cp b : 128 <= cp -> escaped cp b = [b].
Proof. intros H. unfold escaped. repeat (match goal with |- context [cp =? ?k] => destruct (Z.eqb_spec cp k); [lia|] end). destruct (Z.leb_spec cp 31); [lia|done]. Qed.
Lemma escaped_len cp b : (length (escaped cp b) <= 6)%nat.
Proof. unfold escaped. repeat (destruct (cp =? _); [cbn; lia|]). destruct (cp <=? 31); cbn; lia. Qed.
Lemma utf8_len cp : (length (utf8 cp) <= 4)%nat.
Proof. unfold utf8. repeat (destruct (_ <? _); [cbn; lia|]). cbn; lia. Qed.
Lemma esc_len cp : (length (esc cp) <= 6)%nat.
Proof. unfold esc. destruct (cp <? 128); [apply escaped_len|]. pose proof (utf8_len cp). lia. Qed.

Lemma dump_char cp rest c out buf : scalar cp -> (length buf <= 499)%nat ->
  dump_escaped (utf8 cp ++ rest) 0 c out buf =
  (if 512 - Z.of_nat (length (buf ++ esc cp)) <? 13 then dump_escaped rest 0 cp (out ++ buf ++ esc cp) [] else dump_escaped rest 0 cp out (buf ++ esc cp)).
Proof.
  intros Hs Hb. pose proof (esc_len cp) as Le. unfold scalar in Hs. unfold utf8, esc, utf8 in *. destruct (Z.ltb_spec cp 128) as [H1|H1].
  { cbn [app dump_escaped]. rewrite decode_first, (decodes_spec 0 0 127 0 0 cp) by (try reflexivity; lia). cbn [obind]. rewrite Z.sub_0_r.
    cbn [Z.eqb]. rewrite put_ok by lia. reflexivity. }
  destruct (Z.ltb_spec cp 2048) as [H2|H2].
  { cbn [app dump_escaped]. rewrite decode_first, (decodes_spec 0 194 223 2 192 (192 + cp / 64)) by (try reflexivity; zdiv). cbn [obind Z.eqb Pos.eqb].
    rewrite put_ok by (cbn; lia). cbn [obind].
    assert (decode 2 0 (128 + cp mod 64) = Ret (0, 128 + cp mod 64 - 128)) as D2 by (apply (decodes_spec 2 128 191); try reflexivity; zdiv).
    rewrite (fun H1 H2 H3 => decode_cont 2 (192 + cp / 64 - 192) _ _ H1 H2 H3 D2) by (first [done|lia|zdiv]). cbn [obind Z.eqb Pos.eqb].
    replace ((192 + cp / 64 - 192) * 64 + (128 + cp mod 64 - 128)) with cp by zdiv. rewrite escaped_high by lia.
    rewrite put_ok by (rewrite app_length; cbn; lia). cbn [obind]. by rewrite <- !app_assoc. }
  destruct (Z.ltb_spec cp 65536) as [H3|H3].
  { cbn [app dump_escaped]. rewrite decode_first.
    assert (exists s, decode 0 0 (224 + cp / 4096) = Ret (s, cp / 4096) /\ s <> 0 /\ s <> 1 /\
              decode s 0 (128 + cp / 64 mod 64) = Ret (2, 128 + cp / 64 mod 64 - 128)) as (s & D1 & S0 & S1 & D2).
    { destruct (Z_lt_le_dec cp 4096); [|destruct (Z_lt_le_dec cp 53248); [|destruct (Z_lt_le_dec cp 57344)]].
      - exists 4. rewrite (decodes_spec 0 224 224 4 224) by (try reflexivity; zdiv). rewrite (decodes_spec 4 160 191 2 128) by (try reflexivity; zdiv).
        split; [f_equal; f_equal; lia|]. split; [lia|]. split; [lia|done].
      - exists 3. rewrite (decodes_spec 0 225 236 3 224) by (try reflexivity; zdiv). rewrite (decodes_spec 3 128 191 2 128) by (try reflexivity; zdiv).
        split; [f_equal; f_equal; lia|]. split; [lia|]. split; [lia|done].
      - exists 5. rewrite (decodes_spec 0 237 237 5 224) by (try reflexivity; zdiv). rewrite (decodes_spec 5 128 159 2 128) by (try reflexivity; zdiv).
        split; [f_equal; f_equal; lia|]. split; [lia|]. split; [lia|done].
      - exists 3. rewrite (decodes_spec 0 238 239 3 224) by (try reflexivity; zdiv). rewrite (decodes_spec 3 128 191 2 128) by (try reflexivity; zdiv).
        split; [f_equal; f_equal; lia|]. split; [lia|]. split; [lia|done]. }
    rewrite D1. cbn [obind]. destruct (Z.eqb_spec s 0); [done|]. destruct (Z.eqb_spec s 1); [done|]. rewrite put_ok by (cbn; lia). cbn [obind].
    rewrite (fun H1 H2 H3 => decode_cont s (cp / 4096) _ _ H1 H2 H3 D2) by (first [done|lia|zdiv]). cbn [obind Z.eqb Pos.eqb].
    rewrite put_ok by (rewrite app_length; cbn; lia). cbn [obind].
    assert (decode 2 0 (128 + cp mod 64) = Ret (0, 128 + cp mod 64 - 128)) as D3 by (apply (decodes_spec 2 128 191); try reflexivity; zdiv).
    rewrite (fun H1 H2 H3 => decode_cont 2 (cp / 4096 * 64 + (128 + cp / 64 mod 64 - 128)) _ _ H1 H2 H3 D3) by (first [done|lia|zdiv]). cbn [obind Z.eqb Pos.eqb].
    replace ((cp / 4096 * 64 + (128 + cp / 64 mod 64 - 128)) * 64 + (128 + cp mod 64 - 128)) with cp by zdiv. rewrite escaped_high by lia.
    rewrite put_ok by (rewrite !app_length; cbn; lia). cbn [obind]. by rewrite <- !app_assoc. }
  cbn [app dump_escaped]. rewrite decode_first.
  assert (exists s, decode 0 0 (240 + cp / 262144) = Ret (s, cp / 262144) /\ s <> 0 /\ s <> 1 /\
            decode s 0 (128 + cp / 4096 mod 64) = Ret (3, 128 + cp / 4096 mod 64 - 128)) as (s & D1 & S0 & S1 & D2).
  { destruct (Z_lt_le_dec cp 262144); [|destruct (Z_lt_le_dec cp 1048576)].
    - exists 6. rewrite (decodes_spec 0 240 240 6 240) by (try reflexivity; zdiv). rewrite (decodes_spec 6 144 191 3 128) by (try reflexivity; zdiv).
      split; [f_equal; f_equal; lia|]. split; [lia|]. split; [lia|done].
    - exists 7. rewrite (decodes_spec 0 241 243 7 240) by (try reflexivity; zdiv). rewrite (decodes_spec 7 128 191 3 128) by (try reflexivity; zdiv).
      split; [f_equal; f_equal; lia|]. split; [lia|]. split; [lia|done].
    - exists 8. rewrite (decodes_spec 0 244 244 8 240) by (try reflexivity; zdiv). rewrite (decodes_spec 8 128 143 3 128) by (try reflexivity; zdiv).
      split; [f_equal; f_equal; lia|]. split; [lia|]. split; [lia|done]. }
  rewrite D1. cbn [obind]. destruct (Z.eqb_spec s 0); [done|]. destruct (Z.eqb_spec s 1); [done|]. rewrite put_ok by (cbn; lia). cbn [obind].
  rewrite (fun H1 H2 H3 => decode_cont s (cp / 262144) _ _ H1 H2 H3 D2) by (first [done|lia|zdiv]). cbn [obind Z.eqb Pos.eqb].
  rewrite put_ok by (rewrite app_length; cbn; lia). cbn [obind].
  assert (decode 3 0 (128 + cp / 64 mod 64) = Ret (2, 128 + cp / 64 mod 64 - 128)) as D3 by (apply (decodes_spec 3 128 191); try reflexivity; zdiv).
  rewrite (fun H1 H2 H3 => decode_cont 3 (cp / 262144 * 64 + (128 + cp / 4096 mod 64 - 128)) _ _ H1 H2 H3 D3) by (first [done|lia|zdiv]). cbn [obind Z.eqb Pos.eqb].
  rewrite put_ok by (rewrite !app_length; cbn; lia). cbn [obind].
  assert (decode 2 0 (128 + cp mod 64) = Ret (0, 128 + cp mod 64 - 128)) as D4 by (apply (decodes_spec 2 128 191); try reflexivity; zdiv).
  rewrite (fun H1 H2 H3 => decode_cont 2 ((cp / 262144 * 64 + (128 + cp / 4096 mod 64 - 128)) * 64 + (128 + cp / 64 mod 64 - 128)) _ _ H1 H2 H3 D4) by (first [done|lia|zdiv]). cbn [obind Z.eqb Pos.eqb].
  replace (((cp / 262144 * 64 + (128 + cp / 4096 mod 64 - 128)) * 64 + (128 + cp / 64 mod 64 - 128)) * 64 + (128 + cp mod 64 - 128)) with cp by zdiv.
  rewrite escaped_high by lia. rewrite put_ok by (rewrite !app_length; cbn; lia). cbn [obind]. by rewrite <- !app_assoc.
Qed.

Lemma dump_chars cps : Forall scalar cps -> forall c out buf, (length buf <= 499)%nat ->
  dump_escaped (concat (map utf8 cps)) 0 c out buf = Ret (out ++ buf ++ concat (map esc cps)).
Proof.
  induction 1 as [|cp cps Hc _ IH]; intros c out buf Hb.
  - cbn. by rewrite app_nil_r.
  - cbn [map concat]. rewrite dump_char by done.
    destruct (Z.ltb_spec (512 - Z.of_nat (length (buf ++ esc cp))) 13).
    + rewrite IH by (cbn; lia). cbn [app]. by rewrite <- !app_assoc.
    + rewrite IH by lia. by rewrite <- !app_assoc.
Qed.

Lemma hex_digit_spec i : 0 <= i < 16 -> hex (JsonText.hex_digit i) i.
Proof.
  intros H. unfold JsonText.hex_digit. destruct (Z.ltb_spec i 10); [apply JsonGrammar.hex_digit; lia|apply JsonGrammar.hex_lower; lia].
Qed.
Lemma hex4_spec cp : 0 <= cp < 65536 -> hex4 (JsonText.hex4 cp) cp.
Proof.
  intros H. unfold JsonText.hex4.
  assert (cp = (cp / 4096 mod 16) * 4096 + (cp / 256 mod 16) * 256 + (cp / 16 mod 16) * 16 + cp mod 16) as E by zdiv.
  rewrite E at 5. constructor; apply hex_digit_spec, Z.mod_pos_bound; lia.
Qed.
Lemma esc_character cp : scalar cp -> character (esc cp) (utf8 cp).
Proof.
  intros Hs. unfold esc. destruct (Z.ltb_spec cp 128) as [H1|H1]; [|by apply char_plain; [done|lia..]].
  assert (utf8 cp = [cp]) as Eu by (unfold utf8; destruct (Z.ltb_spec cp 128); [done|lia]).
  unfold escaped.
  repeat (match goal with |- context [cp =? ?k] => destruct (Z.eqb_spec cp k) as [->|] end; [rewrite ?Eu; apply char_escape; rewrite !elem_of_cons; tauto|]).
  destruct (Z.leb_spec cp 31).
  - apply char_unicode; [|done]. apply hex4_spec. unfold scalar in Hs. lia.
  - rewrite <- Eu. apply char_plain; [done|lia..].
Qed.
Lemma esc_characters cps : Forall scalar cps -> characters (concat (map esc cps)) (concat (map utf8 cps)).
Proof. induction 1; [constructor|]. cbn. constructor; [by apply esc_character|done]. Qed.
