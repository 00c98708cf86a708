(** * Loading documents whose learning state was written or edited by hand. *)
From Verif Require Import FloatFacts.
From Verif Require Import TotalFacts StepFacts PropFacts OneStep.
From Verif Require Import StateProps TextIO JsonGrammar TextState TextSpec TextProps.
From Verif Require Import DumpProps TextFacts JsonFacts Document DocProps.
From stdpp Require Import list option.
Local Open Scope Z_scope.

(** ** Reading *)
Lemma at_member j k v : member j k = Some v -> j_at j k = Ret v.
Proof. destruct j as [| | | | | | |l]; try discriminate. rewrite member_find. cbn [j_at]. by intros ->. Qed.
Lemma sint_integer w j z : 0 < w -> integer j = Some z -> in_w w z -> j_sint w j = Ret z.
Proof. intros Hw Hj Hz. destruct j; try discriminate Hj; injection Hj as ->; cbn [j_sint]; by rewrite wrap_in_w. Qed.
Lemma u64_integer j z : integer j = Some z -> 0 <= z < 18446744073709551616 -> j_u64 j = Ret z.
Proof. intros Hj Hz. destruct j; try discriminate Hj; injection Hj as ->; cbn [j_u64]; by rewrite Z.mod_small. Qed.
Lemma u32_integer j z : integer j = Some z -> 0 <= z < 4294967296 -> j_u32 j = Ret z.
Proof. intros Hj Hz. destruct j; try discriminate Hj; injection Hj as ->; cbn [j_u32]; by rewrite u32_id. Qed.
Lemma integers_array j zs : integers j = Some zs -> exists l, j = JArr l /\ Forall2 (fun j z => integer j = Some z) l zs.
Proof.
  unfold integers. destruct j; try discriminate. cbn [array mbind option_bind]. intros H. eexists. split; [done|]. by apply mapM_Some.
Qed.
Lemma vec_integers j ws : integers j = Some ws -> Forall (fun v => 0 <= v < 4294967296) ws -> j_vec j_u32 j = Ret ws.
Proof.
  intros H HF. apply integers_array in H as (l & -> & H). cbn [j_vec]. induction H as [|j z l zs Hj H IH]; [done|].
  apply list.Forall_cons in HF as [Hz HF]. cbn [Base.omap]. rewrite (u32_integer j z Hj Hz). cbn [obind]. by rewrite IH.
Qed.

Lemma write_row_read p r c l zs : nm_wf p -> 0 < nm_w p -> (r < nm_rows p)%nat -> (c + length zs <= nm_cols p)%nat ->
  Forall2 (fun j z => integer j = Some z) l zs -> Forall (in_w (nm_w p)) zs ->
  exists p', write_row p r c l = Ret p' /\ nm_wf p' /\ nm_same_shape p p' /\
    forall r' c', (c' < nm_cols p)%nat -> nm_cell p' r' c' =
      if Nat.eqb r' r then match (if decide (c <= c')%nat then zs !! (c' - c)%nat else None) with Some z => z | None => nm_cell p r' c' end
      else nm_cell p r' c'.
Proof.
  intros Hwf Hw Hr Hc H2. revert p c Hwf Hw Hr Hc. induction H2 as [|j z l zs Hj H2 IH]; intros p c Hwf Hw Hr Hc HF; cbn [write_row].
  - exists p. split; [done|]. split; [done|]. split; [done|]. intros r' c' _. destruct (Nat.eqb r' r); [|done]. by destruct (decide _).
  - apply list.Forall_cons in HF as [Hz HF]. cbn [length] in Hc. rewrite (sint_integer _ j z) by done. cbn [obind].
    destruct (nm_set_spec p r c z Hwf) as (p1 & -> & Hwf1 & Hs1 & Hc1); [done|lia|]. cbn [obind]. pose proof Hs1 as (Ew & Er & Ec).
    destruct (IH p1 (S c)) as (p2 & E2 & Hwf2 & Hs2 & Hc2); [done|by rewrite Ew|by rewrite Er|rewrite Ec; lia|by rewrite Ew|].
    exists p2. split; [exact E2|]. split; [done|]. split; [destruct Hs2 as (?&?&?); split_and!; congruence|].
    intros r' c' Hc'. rewrite Hc2 by congruence. rewrite Hc1 by done. rewrite (wrap_in_w _ _ Hw Hz).
    destruct (Nat.eqb_spec r' r) as [->|]; [|done]. cbn [andb]. destruct (Nat.eqb_spec c' c) as [->|Hne].
    + rewrite decide_False by lia. rewrite decide_True by lia. by rewrite Nat.sub_diag.
    + destruct (decide (S c <= c')%nat).
      * rewrite decide_True by lia. replace (c' - c)%nat with (S (c' - S c))%nat by lia. done.
      * rewrite decide_False by lia. done.
Qed.
(** the matrix of a sound document *)
Lemma nm_read jm jw jd w jrows rows nf : member jm "width" = Some jw -> integer jw = Some w -> member jm "data" = Some jd ->
  array jd = Some jrows -> mapM integers jrows = Some rows -> (w = 1 \/ w = 2 \/ w = 4) -> (0 < length rows)%nat ->
  nm_fits (8 * w) (length rows) nf -> Forall (fun row => length row = nf /\ Forall (in_w (8 * w)) row) rows ->
  exists m, nm_from_json jm = Ret m /\ nm_good m /\ nm_w m = 8 * w /\ nm_rows m = length rows /\ nm_cols m = nf /\
    map (nm_row m) (seq 0 (nm_rows m)) = rows.
Proof.
  intros Ew Ew' Ed Ed' Erows Hw Hpos Hfit HF. unfold nm_from_json.
  rewrite (at_member _ _ _ Ew). cbn [obind]. rewrite (u64_integer _ w) by (done || lia). cbn [obind].
  rewrite (at_member _ _ _ Ed). cbn [obind]. destruct jd; try discriminate Ed'. injection Ed' as ->. cbn [j_size].
  apply mapM_Some in Erows. pose proof (Forall2_length _ _ _ Erows) as Hlen. rewrite Hlen.
  assert (forall r, (r < length rows)%nat -> exists l zs, j_index (JArr jrows) r = Ret (JArr l) /\ rows !! r = Some zs /\
    Forall2 (fun j z => integer j = Some z) l zs /\ length zs = nf /\ Forall (in_w (8 * w)) zs) as Hrow.
  { intros r Hr. destruct (lookup_lt_is_Some_2 rows r Hr) as [zs Ez]. destruct (Forall2_lookup_r _ _ _ _ _ Erows Ez) as (jr & Ej & Hj).
    apply integers_array in Hj as (l & -> & Hj). exists l, zs. cbn [j_index]. unfold vget. rewrite Ej.
    rewrite list.Forall_lookup in HF. destruct (HF _ _ Ez). done. }
  destruct (Hrow 0%nat Hpos) as (l0 & zs0 & E0 & _ & H0 & L0 & _). rewrite E0. cbn [obind j_size]. rewrite (Forall2_length _ _ _ H0), L0.
  assert ((if w =? 1 then 8 else if w =? 2 then 16 else 32) = 8 * w) as -> by (by destruct Hw as [->|[->| ->]]).
  destruct (nm_new_wf (8 * w) (length rows) nf Hfit) as (Hwf0 & Er0 & Ec0 & Ew0 & _).
  set (p0 := nm_new (8 * w) (length rows) nf) in *.
  destruct (ofor_inv (fun i p => nm_wf p /\ nm_same_shape p0 p /\ forall r zs c z, (r < i)%nat -> rows !! r = Some zs -> zs !! c = Some z -> nm_cell p r c = z)
    0 (length rows) p0 (fun rit p => let* row := j_index (JArr jrows) rit in write_row p rit 0 (j_elements row))) as (m & Em & Hwf & Hs & Hc).
  - split; [done|]. split; [done|]. intros; lia.
  - intros i p Hi (Hwfp & Hsp & Hcp). destruct (Hrow i ltac:(lia)) as (l & zs & Ei & Ez & Hl & Ln & Hin). rewrite Ei. cbn [obind j_elements].
    pose proof Hsp as (Fw & Fr & Fc).
    destruct (write_row_read p i 0 l zs) as (p1 & E1 & Hwf1 & Hs1 & Hc1).
    + done.
    + rewrite Fw, Ew0. lia.
    + rewrite Fr, Er0. lia.
    + rewrite Fc, Ec0, Ln. lia.
    + done.
    + by rewrite Fw, Ew0.
    + exists p1. split; [exact E1|]. split; [done|]. split; [destruct Hs1 as (?&?&?); split_and!; congruence|].
      intros r zs' c z Hr Ez' Ec'. assert (c < nm_cols p)%nat as Hcc.
      { apply lookup_lt_Some in Ec'. rewrite list.Forall_lookup in HF. destruct (HF _ _ Ez') as [Ln' _]. rewrite Fc, Ec0. lia. }
      rewrite Hc1 by done. destruct (Nat.eqb_spec r i) as [->|Hne].
      * rewrite decide_True by lia. rewrite Nat.sub_0_r. rewrite Ez in Ez'. injection Ez' as <-. by rewrite Ec'.
      * eapply Hcp; [|exact Ez'|exact Ec']. lia.
  - destruct Hs as (Fw & Fr & Fc). exists m. split; [exact Em|]. split.
    + split; [done|]. split; [rewrite Fw, Ew0; lia|]. intros r c Hr Hcc. rewrite Fw, Ew0. rewrite Fr, Er0 in Hr. rewrite Fc, Ec0 in Hcc.
      destruct (Hrow r Hr) as (l & zs & _ & Ez & _ & Ln & Hin). destruct (lookup_lt_is_Some_2 zs c) as [z Ec']; [lia|].
      rewrite (Hc r zs c z) by (done || lia). rewrite list.Forall_lookup in Hin. by eapply Hin.
    + split; [congruence|]. split; [congruence|]. split; [congruence|].
      apply list_eq. intros r. rewrite list_lookup_fmap. destruct (decide (r < length rows)%nat) as [Hr|Hr].
      * rewrite Fr, Er0, lookup_seq_lt by done. cbn [fmap option_fmap option_map]. destruct (Hrow r Hr) as (l & zs & _ & Ez & _ & Ln & _). rewrite Ez. f_equal.
        unfold nm_row, id. apply list_eq. intros c. rewrite list_lookup_fmap. rewrite Fc, Ec0. destruct (decide (c < nf)%nat) as [Hcc|Hcc].
        -- rewrite lookup_seq_lt by done. destruct (lookup_lt_is_Some_2 zs c) as [z Ec']; [lia|]. rewrite Ec'. cbn. f_equal. by eapply Hc; [|exact Ez|].
        -- rewrite lookup_seq_ge by lia. symmetry. apply lookup_ge_None. lia.
      * rewrite Fr, Er0, lookup_seq_ge by lia. symmetry. apply lookup_ge_None. lia.
Qed.
Lemma fits_of w n nf : (w = 1 \/ w = 2 \/ w = 4) -> (0 < n)%nat -> Z.of_nat n * (Z.of_nat nf * w + 63) < 2 ^ 32 -> nm_fits (8 * w) n nf.
Proof.
  change (2 ^ 32) with 4294967296. intros Hw Hn H. unfold nm_fits. split; [destruct Hw as [->|[->| ->]]; lia|].
  replace (8 * w / 8) with w by (rewrite Z.mul_comm, Z.div_mul; lia).
  set (q := Z.of_nat nf * w + 63) in *. assert (63 <= q) by (unfold q; destruct Hw as [->|[->| ->]]; lia).
  assert (q / 64 * (64 / w) <= q).
  { pose proof (Z.mul_div_le q 64 ltac:(lia)). pose proof (Z.div_pos q 64 ltac:(lia) ltac:(lia)).
    assert (64 / w <= 64) by (destruct Hw as [->|[->| ->]]; cbn; lia). nia. }
  assert (0 <= q / 64 * (64 / w)).
  { apply Z.mul_nonneg_nonneg; [apply Z.div_pos; lia|destruct Hw as [->|[->| ->]]; done]. }
  nia.
Qed.
(** the learning state of a sound document *)
Lemma ta_read n nf weighted maxw doc : (0 < n)%nat -> 1 <= maxw <= int_max -> sound_state (Z.of_nat (2 * n)) (Z.of_nat nf) weighted maxw doc ->
  exists jt w m rows ws, member doc "ta_state" = Some jt /\
    (forall P (C : pol_codec P) q, pc_read C jt = Ret q -> ta_from_json C jt = Ret (TA m ws q)) /\ (w = 8 \/ w = 16 \/ w = 32) /\
    rows_of doc = Some rows /\ weights_of doc = Some ws /\ nm_good m /\ nm_w m = w /\ nm_rows m = (2 * n)%nat /\ nm_cols m = nf /\
    map (nm_row m) (seq 0 (nm_rows m)) = rows /\ weights_ok weighted maxw n ws /\ bytes_of doc = Some (w / 8).
Proof.
  intros Hn Hmax (w & rows & ws & Eb & Er & Ews & Hw & Hlen & Hmem & HF & HW).
  assert (length rows = (2 * n)%nat) as Hlr by lia.
  pose proof Eb as Eb'. pose proof Er as Er'. pose proof Ews as Ews'.
  unfold bytes_of in Eb'. unfold rows_of in Er'. unfold weights_of in Ews'.
  destruct (member doc "ta_state") as [jt|]; [|discriminate Eb']. cbn [mbind option_bind] in Eb', Er', Ews'.
  destruct (member jt "matrix") as [jm|] eqn:Em; [|discriminate Eb']. cbn [mbind option_bind] in Eb', Er'.
  destruct (member jm "width") as [jw|] eqn:Ew; [|discriminate Eb']. cbn [mbind option_bind] in Eb'.
  destruct (member jm "data") as [jd|] eqn:Ed; [|discriminate Er']. cbn [mbind option_bind] in Er'.
  destruct (array jd) as [jrows|] eqn:Ea; [|discriminate Er']. cbn [mbind option_bind] in Er'.
  destruct (member jt "weights") as [jws|] eqn:Ewt; [|discriminate Ews']. cbn [mbind option_bind] in Ews'.
  assert (weights_ok weighted maxw n ws) as Hwok.
  { unfold weights_ok. destruct weighted; [|done]. destruct HW as [Hl HW]. split; [lia|]. eapply list.Forall_impl; [exact HW|]. intros z Hz. cbv beta in Hz. lia. }
  destruct (nm_read jm jw jd w jrows rows nf Ew Eb' Ed Ea Er' Hw) as (m & Emat & Hg & Fw & Fr & Fc & Frows).
  - lia.
  - apply fits_of; [done|lia|]. rewrite Hlr. lia.
  - eapply list.Forall_impl; [exact HF|]. intros row [Hl Hrow]. split; [lia|exact Hrow].
  - exists jt, (8 * w), m, rows, ws. split; [done|]. split.
    + intros P C q Eq. unfold ta_from_json. rewrite (at_member _ _ _ Em). cbn [obind]. rewrite Emat. cbn [obind]. rewrite (at_member _ _ _ Ewt). cbn [obind].
      rewrite (vec_integers jws ws Ews'); [cbn [obind]; rewrite Eq; reflexivity|]. eapply weights_words; [exact Hwok|lia].
    + split; [lia|]. split; [done|]. split; [done|]. split; [done|]. split; [done|]. split; [congruence|]. split; [done|]. split; [done|].
      split; [done|]. rewrite Eb. f_equal. rewrite Z.mul_comm, Z.div_mul; lia.
Qed.

(** generators and parameters are those of the saved estimator *)
Lemma rest_back {P} (C : pol_codec P) kind S1 S2 reset (e : est P (eS S1) irng frng) (e0 : est P (eS S2) irng frng) c doc j jt s :
  to_json C S1 kind e = Ret doc -> same_rest (reparse doc) j -> member j "ta_state" = Some jt -> ta_from_json C jt = Ret s ->
  irng_ok (e_igen e) -> frng_ok (e_fgen e) -> storable_params (e_params e) -> finite_reals (e_params e) ->
  reset (e_params e) (e_cache e0) = Ret c ->
  from_json C S2 reset e0 j = Ret (Est (e_params e) s c (e_igen e) (e_fgen e)).
Proof.
  intros Ej (Ri & Rf & Rp) Et Es Hg Hf Hp Hfin Hc. unfold to_json in Ej. apply obind_ret_inv in Ej as (js & _ & Ej). injection Ej as <-.
  erewrite member_saved in Ri by reflexivity. erewrite member_saved in Rf by reflexivity. erewrite member_saved in Rp by reflexivity.
  unfold from_json.
  rewrite (at_member _ _ _ Ri). cbn [obind]. rewrite irng_back by exact Hg. cbn [obind].
  rewrite (at_member _ _ _ Rf). cbn [obind]. rewrite frng_back by exact Hf. cbn [obind].
  rewrite (at_member _ _ _ Et). cbn [obind]. rewrite Es. cbn [obind].
  rewrite (at_member _ _ _ Rp). cbn [obind].
  destruct (params_back _ Hp) as (q & -> & Er). cbn [obind]. rewrite Er, kept_finite by done. rewrite Hc. cbn [obind].
  rewrite (assign_id _ _ (proj1 Hg)), (assign_id _ _ (proj1 Hf)). reflexivity.
Qed.

(** ** Training goes on within the bounds *)
Lemma rows_within m n nf N : nm_rows m = n -> nm_cols m = nf -> (forall r c, (r < n)%nat -> (c < nf)%nat -> - N <= nm_cell m r c <= N - 1) ->
  length (map (nm_row m) (seq 0 (nm_rows m))) = n /\ Forall (fun row => length row = nf) (map (nm_row m) (seq 0 (nm_rows m))) /\
  Forall (Forall (fun z => - N <= z < N)) (map (nm_row m) (seq 0 (nm_rows m))).
Proof.
  intros Fr Fc Hin. split; [by rewrite map_length, seq_length|].
  split; apply List.Forall_map, list.Forall_forall; intros r Hr%elem_of_seq; unfold nm_row; [by rewrite map_length, seq_length|].
  apply List.Forall_map, list.Forall_forall. intros c Hc%elem_of_seq. specialize (Hin r c ltac:(lia) ltac:(lia)). lia.
Qed.

(** ** Widths *)
Section Width.
  Context {R : rnd} (g_ok : eG R -> Prop) (f_ok : eF R -> Prop) (HR : rnd_ok R g_ok f_ok).
  Context (S : sch) (HS : sch_ok S) (A : algo R) (vw : aview A).
  Lemma good_width a p os rs e L nf : trains_well R (ca_states a) A vw -> clf_created a p -> clf_history S A vw p os rs e -> clf_dims_of os rs = Some (L, nf) ->
    nm_wf (ta_matrix (e_ta e)) /\ nm_w (ta_matrix (e_ta e)) = width_of (ca_counting a) (ca_states a).
  Proof.
    intros Ht Hc Hh Hd. destruct Ht as [|HN].
    - pose proof (clf_classic_at g_ok f_ok HR S HS a p os rs e Hc Hh) as H. rewrite Hd in H. destruct H as [(_ & _ & [HI _ _ _ _ _ _]) _].
      destruct HI as (Hg & Fw & _). split; [apply Hg|exact Fw].
    - pose proof (clf_bitwise_at g_ok f_ok HR S HS a p os rs e Hc HN Hh) as H. rewrite Hd in H. destruct H as [(_ & _ & [HI _ _ _ _ _ _]) _].
      destruct HI as [((Hg & _) & Fw & _) _]. split; [apply Hg|exact Fw].
  Qed.
  Lemma good_width_reg a p os rs e nf : trains_well R (ra_states a) A vw -> reg_created a p -> reg_history S A vw p os rs e -> reg_dims_of os rs = Some nf ->
    nm_wf (ta_matrix (e_ta e)) /\ nm_w (ta_matrix (e_ta e)) = width_of (ra_counting a) (ra_states a).
  Proof.
    intros Ht Hc Hh Hd. destruct Ht as [|HN].
    - pose proof (reg_classic_at g_ok f_ok HR S HS a p os rs e Hc Hh) as H. rewrite Hd in H. destruct H as [(_ & _ & [HI _ _ _ _ _]) _].
      destruct HI as (Hg & Fw & _). split; [apply Hg|exact Fw].
    - pose proof (reg_bitwise_at g_ok f_ok HR S HS a p os rs e Hc HN Hh) as H. rewrite Hd in H. destruct H as [(_ & _ & [HI _ _ _ _ _]) _].
      destruct HI as [((Hg & _) & Fw & _) _]. split; [apply Hg|exact Fw].
  Qed.
End Width.
Lemma sound_of_parts n f weighted maxw w rows ws doc N : (w = 8 \/ w = 16 \/ w = 32) -> N <= 2 ^ (w - 1) -> bytes_of doc = Some (w / 8) ->
  rows_of doc = Some rows -> weights_of doc = Some ws -> Z.of_nat (length rows) = n -> Forall (fun row => length row = f) rows ->
  Forall (Forall (fun z => - N <= z < N)) rows ->
  (if weighted : bool then 2 * Z.of_nat (length ws) = n /\ Forall (fun v => 0 <= v < maxw) ws else ws = []) ->
  n * (Z.of_nat f * (w / 8) + 63) < 2 ^ 32 -> sound_state n (Z.of_nat f) weighted maxw doc.
Proof.
  intros Hw HN Eb Er Ews Hl Hf HF HW HB. exists (w / 8), rows, ws. split; [done|]. split; [done|]. split; [done|].
  split; [destruct Hw as [->|[->| ->]]; [by left|by right; left|by right; right]|]. split; [done|]. split; [done|]. split; [|done].
  assert (8 * (w / 8) = w) as -> by (destruct Hw as [->|[->| ->]]; reflexivity).
  apply list.Forall_forall. intros row Hin. rewrite list.Forall_forall in Hf. rewrite list.Forall_forall in HF. split; [by rewrite (Hf _ Hin)|].
  eapply list.Forall_impl; [exact (HF _ Hin)|]. intros z Hz. cbv beta in Hz. lia.
Qed.
Section Loaded.
  Context (sh : irng -> nat -> list nat * irng) (l : bool) (fuel : nat) (b1 b2 : Z -> float32) (Hsh : shuffle_ok sh).
  Let R := mt_rnd sh l fuel b1 b2.
  Let HR : rnd_ok R irng_ok frng_ok := mt_rnd_ok sh l fuel b1 b2 Hsh.
  Context (A : algo R) (vw : aview A) (C : pol_codec (a_pol A)) (HC : tsetlini_codec R A vw C).
  (** the invariant of the algorithm's learning states, which is kept from [Nmin] states on, and what a document must satisfy besides [sound_state] *)
  Context (Nmin : Z) (HNmin : 1 <= Nmin <= 2) (Inv : Z -> Z -> nat -> nat -> nmatrix -> a_pol A -> Prop) (extra : Z -> Z -> json -> Prop).
  Context (HLaws : forall w N, (w = 8 \/ w = 16 \/ w = 32) -> Nmin <= N <= 2 ^ (w - 1) ->
    exists E1n E1p E2, laws (R := R) A irng_ok vw True True w N (Inv w N) E1n E1p E2).
  Context (HInv : forall w N n nf m q, Inv w N n nf m q -> nm_good m /\ nm_w m = w /\ nm_rows m = (2 * n)%nat /\ nm_cols m = nf /\
    forall r c, (r < 2 * n)%nat -> (c < nf)%nat -> - N <= nm_cell m r c <= N - 1).
  Context (Hread : forall n nf weighted maxw doc, (0 < n)%nat -> Z.of_nat (2 * n) <= 2 * int_max -> 1 <= maxw <= int_max ->
    sound_state (Z.of_nat (2 * n)) (Z.of_nat nf) weighted maxw doc -> extra (Z.of_nat (2 * n)) (Z.of_nat nf) doc ->
    exists jt w m q rows ws, member doc "ta_state" = Some jt /\ ta_from_json C jt = Ret (TA m ws q) /\ (w = 8 \/ w = 16 \/ w = 32) /\
      rows_of doc = Some rows /\ weights_of doc = Some ws /\ nm_good m /\ nm_w m = w /\ nm_rows m = (2 * n)%nat /\ nm_cols m = nf /\
      map (nm_row m) (seq 0 (nm_rows m)) = rows /\ weights_ok weighted maxw n ws /\ bytes_of doc = Some (w / 8) /\
      by_sign A vw n nf m q /\
      forall N, (forall r c, (r < nm_rows m)%nat -> (c < nm_cols m)%nat -> - N <= nm_cell m r c <= N - 1) -> Inv w N n nf m q).
  Let HA := codec_algo R A vw C HC.
  Notation estS S := (est (a_pol A) (eS S) irng frng).

  Lemma clf_edited S1 S2 (HS1 : sch_ok S1) (HS2 : sch_ok S2) a p os rs (e : est (a_pol A) (eS S1) (eG R) (eF R)) (e0 : estS S2) L nf doc j :
    clf_created a p -> storable_params p -> finite_reals p -> clf_history S1 A vw p os rs e -> clf_dims_of os rs = Some (L, nf) ->
    clf_to_json C S1 e = Ret doc -> same_rest (reparse doc) j ->
    sound_state (Z.of_nat L * ca_clauses a) (Z.of_nat nf) (ca_weighted a) (ca_max_weight a) j -> extra (Z.of_nat L * ca_clauses a) (Z.of_nat nf) j ->
    exists e' m, clf_from_json C S2 e0 j = Ret e' /\ read_classifier j = Some m /\
      e_params e' = e_params e /\ e_igen e' = e_igen e /\ e_fgen e' = e_fgen e /\
      nm_wf (ta_matrix (e_ta e')) /\ rows_of j = Some (map (nm_row (ta_matrix (e_ta e'))) (seq 0 (nm_rows (ta_matrix (e_ta e'))))) /\ weights_of j = Some (ta_weights (e_ta e')) /\
      (bytes_of j = Some (width_of (ca_counting a) (ca_states a) / 8) -> (forall rows, rows_of j = Some rows -> Forall (Forall (fun z => - (ca_states a) <= z < ca_states a)) rows) ->
        clf_at (R := R) irng_ok frng_ok S2 A True True (Inv (width_of (ca_counting a) (ca_states a)) (ca_states a)) a p (Some (L, nf)) e') /\
      forall x, v_phys vw x -> v_ok vw nf x -> exists e1 e2 w,
        clf_decision1 (R := R) S2 A e' x = Ret (Right (document_votes m (v_x vw x)), e1) /\
        clf_predict1 (R := R) S2 A e' x = Ret (Right (Z.of_nat w), e2) /\ wins m (v_x vw x) w.
  Proof.
    intros Hc Hst Hfin Hh Hd Hdoc Hrest Hsound Hex. pose proof (cc_valid _ _ Hc) as Ha.
    destruct (clf_hist_laws (R := R) irng_ok frng_ok HR A vw HA a Ha) as (I & E1n & E1p & E2 & Lw).
    pose proof (clf_history_at (R := R) irng_ok frng_ok HR S1 HS1 A vw _ _ I E1n E1p E2 Lw a p os rs e Hc eq_refl eq_refl Hh) as At.
    rewrite Hd in At. destruct At as [(_ & Hdim & Hcore) Ep].
    destruct (clf_n_bound a L nf Ha _ Hdim) as [Hn Hn0]. destruct (clf_opl_facts a Ha) as (Ecl & _).
    destruct Hcore as [_ _ _ _ (ct0 & Ect & _) Hg Hf]. cbn [fst snd] in *.
    replace (Z.of_nat L * ca_clauses a) with (Z.of_nat (2 * (L * clf_opl a))) in Hsound, Hex by (rewrite Ecl, !Nat2Z.inj_mul; ring).
    assert (1 <= ca_max_weight a <= int_max) as Hmax by (destruct Ha as [[] [] _]; unfold is_int in *; lia).
    destruct (Hread _ _ _ _ _ Hn0 ltac:(unfold int_max in *; lia) Hmax Hsound Hex)
      as (jt & w & m & q & rows & ws & Et & Eta & Hw & Erows & Ews & Hgood & Fw & Fr & Fc & Frows & Hws & Hby & Hsign & Hinv).
    assert (Z.of_nat nf <= int_max) as Hnf by (rewrite <- Fc; apply alloc_cols; [apply Hgood|lia]).
    assert (Z.of_nat L <= int_max) as HL.
    { assert (L <= L * clf_opl a)%nat; [|lia]. clear -Hn0. destruct (clf_opl a); nia. }
    destruct (clf_fit_storable L nf p) as [Hst' Hfin']; [done|done|done|]. rewrite <- Ep in Hst', Hfin'.
    assert (clf_cache_reset S2 (e_params e) (e_cache e0) =
      Ret (Cache (replicate (L * clf_opl a) 0) (replicate (L * clf_opl a) 0) (replicate L 0) ct0 (ca_sched (e_cache e0)))) as Ereset.
    { unfold clf_cache_reset. rewrite (P_outputs a L nf Ha _ Hdim), (cd_labels _ _ _ _ Hdim), (ch_s _ _ (cd_has _ _ _ _ Hdim)), (cd_features _ _ _ _ Hdim).
      cbn [obind]. rewrite Ect. cbn [obind]. by rewrite !Nat2Z.id. }
    pose proof (rest_back C "classifier" S1 S2 (clf_cache_reset S2) e e0 _ doc j jt (TA m ws q) Hdoc Hrest Et Eta Hg Hf Hst' (Hfin' Hfin) Ereset) as El.
    set (e' := Est (e_params e) (TA m ws q) (Cache (replicate (L * clf_opl a) 0) (replicate (L * clf_opl a) 0) (replicate L 0) ct0 (ca_sched (e_cache e0)))
      (e_igen e) (e_fgen e)) in *.
    assert (forall k z, e_params e !! k = Some (PInt z) -> param_of j k = Some z) as Hpar.
    { intros k z Hk. destruct Hrest as (_ & _ & Rp). unfold param_of. rewrite Rp. unfold clf_to_json, to_json in Hdoc.
      apply obind_ret_inv in Hdoc as (js & _ & Hdoc). injection Hdoc as <-. erewrite member_saved by reflexivity. cbn [mbind option_bind].
      unfold params_to_json. rewrite (member_saved _ k (JInt z)); [|exact (eq_trans (params_members _ _) (f_equal (fmap pv_to_json) Hk))]. cbn [mbind option_bind]. apply integer_back. }
    exists e', (clf_model A a L nf (e_ta e')). split; [exact El|]. split.
    { unfold read_classifier. destruct Hdim as [Hhas Hlab Hnfp _ _]. rewrite (Hpar _ _ (at_int_some _ _ _ Hlab)). cbn [mbind option_bind].
      rewrite (Hpar _ _ (at_int_some _ _ _ (ch_clauses _ _ Hhas))). cbn [mbind option_bind].
      rewrite (Hpar _ _ (at_int_some _ _ _ Hnfp)). cbn [mbind option_bind].
      rewrite (Hpar _ _ (at_int_some _ _ _ (ch_threshold _ _ Hhas))). cbn [mbind option_bind].
      rewrite Erows, Ews, <- Frows. reflexivity. }
    split; [done|]. split; [done|]. split; [done|]. split; [apply Hgood|]. split; [by rewrite Erows, <- Frows|]. split; [exact Ews|].
    assert (forall N, (forall r c, (r < nm_rows m)%nat -> (c < nm_cols m)%nat -> - N <= nm_cell m r c <= N - 1) ->
      clf_fitted (R := R) irng_ok frng_ok S2 A True True (Inv w N) a L nf e') as Hfitg.
    { intros N HN. pose proof (ct_good_true (R := R) irng_ok (ca_s a) nf) as Hgood'. unfold ct_good in Hgood'. rewrite Ect in Hgood'.
      split; [done|]. split; [exact Hdim|]. constructor; cbn [fst snd e_ta e_cache e_igen e_fgen ca_ct ta_matrix ta_pol ta_weights e']; try done.
      - by apply Hinv.
      - unfold lens. cbn [ca_fb ca_out ca_sum]. by rewrite !replicate_length.
      - by exists ct0. }
    split.
    { intros Hb Hrows. specialize (Hrows _ Erows). destruct (wide_enough (ca_counting a) (ca_states a)) as [Hwd _].
      { destruct Ha as [_ [] _]. done. } { destruct Ha as [[] [] _]. unfold is_int in *. lia. }
      assert (w = width_of (ca_counting a) (ca_states a)) as <-.
      { rewrite Hby in Hb. injection Hb as Hb. destruct Hw as [->|[->| ->]], Hwd as [Hwd|[Hwd|Hwd]]; rewrite Hwd in *; try done; discriminate Hb. }
      split; [|exact Ep]. apply Hfitg. intros r c Hr Hcc. rewrite <- Frows in Hrows. rewrite List.Forall_map in Hrows. rewrite list.Forall_forall in Hrows.
      specialize (Hrows r ltac:(apply elem_of_seq; lia)). cbv beta in Hrows. unfold nm_row in Hrows. rewrite List.Forall_map in Hrows. rewrite list.Forall_forall in Hrows.
      specialize (Hrows c ltac:(apply elem_of_seq; lia)). cbv beta in Hrows. lia. }
    set (N := 2 ^ (w - 1)).
    destruct (HLaws w N Hw) as (E1n' & E1p' & E2' & Lw'). { unfold N. destruct Hw as [->|[->| ->]]; cbn; lia. }
    pose proof (Hfitg N) as Hfit. destruct Hgood as (Hgw & Hg0 & Hin).
    specialize (Hfit ltac:(intros r c Hr Hcc; specialize (Hin r c Hr Hcc); unfold in_w in Hin; rewrite Fw in Hin; unfold N; lia)).
    intros x Hp Hx.
    destruct (clf_decision1_spec (R := R) irng_ok frng_ok S2 HS2 A vw True True _ _ _ _ _ _ Lw' a L nf Ha e' Hfit x Hp) as [(_ & c1 & D1 & _)|[Hno _]]; [|by destruct Hno].
    destruct (clf_predict1_spec (R := R) irng_ok frng_ok S2 HS2 A vw True True _ _ _ _ _ _ Lw' a L nf Ha e' Hfit x Hp) as [(_ & c2 & D2 & _)|[Hno _]]; [|by destruct Hno].
    destruct (clf_says A vw a L nf (e_ta e') x Ha (cd_L _ _ _ _ Hdim)) as (Hdv & wl & Ewl & Hwl).
    { exact Hsign. }
    do 2 eexists. exists wl. split; [exact (eq_trans D1 (f_equal (fun v => Ret (Right v, _)) (eq_sym Hdv)))|].
    split; [exact (eq_trans D2 (f_equal (fun v => Ret (Right v, _)) Ewl))|exact Hwl].
  Qed.
  Lemma reg_edited S1 S2 (HS1 : sch_ok S1) (HS2 : sch_ok S2) a p os rs (e : est (a_pol A) (eS S1) (eG R) (eF R)) (e0 : estS S2) nf doc j :
    reg_created a p -> storable_params p -> finite_reals p -> reg_history S1 A vw p os rs e -> reg_dims_of os rs = Some nf ->
    reg_to_json C S1 e = Ret doc -> same_rest (reparse doc) j ->
    sound_state (ra_clauses a) (Z.of_nat nf) (ra_weighted a) (ra_max_weight a) j -> extra (ra_clauses a) (Z.of_nat nf) j ->
    exists e' m, reg_from_json C S2 e0 j = Ret e' /\ read_regressor j = Some m /\
      e_params e' = e_params e /\ e_igen e' = e_igen e /\ e_fgen e' = e_fgen e /\
      nm_wf (ta_matrix (e_ta e')) /\ rows_of j = Some (map (nm_row (ta_matrix (e_ta e'))) (seq 0 (nm_rows (ta_matrix (e_ta e'))))) /\ weights_of j = Some (ta_weights (e_ta e')) /\
      (bytes_of j = Some (width_of (ra_counting a) (ra_states a) / 8) -> (forall rows, rows_of j = Some rows -> Forall (Forall (fun z => - (ra_states a) <= z < ra_states a)) rows) ->
        reg_at (R := R) irng_ok S2 A True True (Inv (width_of (ra_counting a) (ra_states a)) (ra_states a)) a p (Some nf) e') /\
      forall x, v_phys vw x -> v_ok vw nf x -> exists e1, reg_predict1 (R := R) S2 A e' x = Ret (Right (document_response m (v_x vw x)), e1).
  Proof.
    intros Hc Hst Hfin Hh Hd Hdoc Hrest Hsound Hex. pose proof (rc_valid _ _ Hc) as Ha.
    destruct (reg_hist_laws (R := R) irng_ok frng_ok HR A vw HA a Ha) as (I & E1n & E1p & E2 & Lw).
    pose proof (reg_history_at (R := R) irng_ok frng_ok HR S1 HS1 A vw _ _ I E1n E1p E2 Lw a p os rs e Hc eq_refl eq_refl Hh) as At.
    pose proof (reg_history_fgen (R := R) irng_ok frng_ok HR S1 A vw p os rs e Hh) as Hf.
    rewrite Hd in At. destruct At as [(_ & Hdim & Hcore) Ep].
    destruct (reg_n_facts a Ha) as (Ecl & _ & Hn0). assert (0 < reg_n a)%nat as Hn0' by lia.
    destruct Hcore as [_ _ _ _ (ct0 & Ect & _) Hg]. cbn [fst snd] in *.
    replace (ra_clauses a) with (Z.of_nat (2 * reg_n a)) in Hsound, Hex by lia.
    assert (1 <= ra_max_weight a <= int_max) as Hmax by (destruct Ha as [[] [] _]; unfold is_int in *; lia).
    destruct (Hread _ _ _ _ _ Hn0' ltac:(destruct Ha as [[] _ _]; unfold is_int, int_max in *; lia) Hmax Hsound Hex)
      as (jt & w & m & q & rows & ws & Et & Eta & Hw & Erows & Ews & Hgood & Fw & Fr & Fc & Frows & Hws & Hby & Hsign & Hinv).
    assert (Z.of_nat nf <= int_max) as Hnf by (rewrite <- Fc; apply alloc_cols; [apply Hgood|lia]).
    destruct (reg_fit_storable nf p) as [Hst' Hfin']; [done|done|]. rewrite <- Ep in Hst', Hfin'.
    assert (reg_cache_reset S2 (e_params e) (e_cache e0) = Ret (Cache [] (replicate (reg_n a) 0) [] ct0 (ca_sched (e_cache e0)))) as Ereset.
    { unfold reg_cache_reset. rewrite (P_reg_n a Ha _ (rd_has _ _ _ Hdim)), (rh_s _ _ (rd_has _ _ _ Hdim)), (rd_features _ _ _ Hdim).
      cbn [obind]. rewrite Ect. cbn [obind]. by rewrite !Nat2Z.id. }
    pose proof (rest_back C "regressor" S1 S2 (reg_cache_reset S2) e e0 _ doc j jt (TA m ws q) Hdoc Hrest Et Eta Hg Hf Hst' (Hfin' Hfin) Ereset) as El.
    set (e' := Est (e_params e) (TA m ws q) (Cache [] (replicate (reg_n a) 0) [] ct0 (ca_sched (e_cache e0))) (e_igen e) (e_fgen e)) in *.
    assert (forall k z, e_params e !! k = Some (PInt z) -> param_of j k = Some z) as Hpar.
    { intros k z Hk. destruct Hrest as (_ & _ & Rp). unfold param_of. rewrite Rp. unfold reg_to_json, to_json in Hdoc.
      apply obind_ret_inv in Hdoc as (js & _ & Hdoc). injection Hdoc as <-. erewrite member_saved by reflexivity. cbn [mbind option_bind].
      unfold params_to_json. rewrite (member_saved _ k (JInt z)); [|exact (eq_trans (params_members _ _) (f_equal (fmap pv_to_json) Hk))]. cbn [mbind option_bind]. apply integer_back. }
    exists e', (reg_model A a nf (e_ta e')). split; [exact El|]. split.
    { unfold read_regressor. destruct Hdim as [Hhas Hnfp].
      rewrite (Hpar _ _ (at_int_some _ _ _ (rh_clauses _ _ Hhas))). cbn [mbind option_bind].
      rewrite (Hpar _ _ (at_int_some _ _ _ Hnfp)). cbn [mbind option_bind].
      rewrite (Hpar _ _ (at_int_some _ _ _ (rh_threshold _ _ Hhas))). cbn [mbind option_bind].
      rewrite Erows, Ews, <- Frows. reflexivity. }
    split; [done|]. split; [done|]. split; [done|]. split; [apply Hgood|]. split; [by rewrite Erows, <- Frows|]. split; [exact Ews|].
    assert (forall N, (forall r c, (r < nm_rows m)%nat -> (c < nm_cols m)%nat -> - N <= nm_cell m r c <= N - 1) ->
      reg_fitted (R := R) irng_ok S2 A True True (Inv w N) a nf e') as Hfitg.
    { intros N HN. pose proof (ct_good_true (R := R) irng_ok (ra_s a) nf) as Hgood'. unfold ct_good in Hgood'. rewrite Ect in Hgood'.
      split; [done|]. split; [exact Hdim|]. constructor; cbn [fst snd e_ta e_cache e_igen e_fgen ca_ct ta_matrix ta_pol ta_weights e']; try done.
      - by apply Hinv.
      - cbn [ca_fb ca_out ca_sum]. by rewrite !replicate_length.
      - by exists ct0. }
    split.
    { intros Hb Hrows. specialize (Hrows _ Erows). destruct (wide_enough (ra_counting a) (ra_states a)) as [Hwd _].
      { destruct Ha as [_ [] _]. done. } { destruct Ha as [[] [] _]. unfold is_int in *. lia. }
      assert (w = width_of (ra_counting a) (ra_states a)) as <-.
      { rewrite Hby in Hb. injection Hb as Hb. destruct Hw as [->|[->| ->]], Hwd as [Hwd|[Hwd|Hwd]]; rewrite Hwd in *; try done; discriminate Hb. }
      split; [|exact Ep]. apply Hfitg. intros r c Hr Hcc. rewrite <- Frows in Hrows. rewrite List.Forall_map in Hrows. rewrite list.Forall_forall in Hrows.
      specialize (Hrows r ltac:(apply elem_of_seq; lia)). cbv beta in Hrows. unfold nm_row in Hrows. rewrite List.Forall_map in Hrows. rewrite list.Forall_forall in Hrows.
      specialize (Hrows c ltac:(apply elem_of_seq; lia)). cbv beta in Hrows. lia. }
    set (N := 2 ^ (w - 1)).
    destruct (HLaws w N Hw) as (E1n' & E1p' & E2' & Lw'). { unfold N. destruct Hw as [->|[->| ->]]; cbn; lia. }
    pose proof (Hfitg N) as Hfit. destruct Hgood as (Hgw & Hg0 & Hin).
    specialize (Hfit ltac:(intros r c Hr Hcc; specialize (Hin r c Hr Hcc); unfold in_w in Hin; rewrite Fw in Hin; unfold N; lia)).
    intros x Hp Hx.
    destruct (reg_predict1_spec (R := R) irng_ok S2 HS2 A vw True True _ _ _ _ _ _ Lw' a nf Ha e' Hfit x Hp) as [(_ & c1 & D1 & _)|[Hno _]]; [|by destruct Hno].
    eexists. refine (eq_trans D1 (f_equal (fun v => Ret (Right v, _)) (eq_sym (reg_says A vw a nf (e_ta e') x Ha _)))).
    exact Hsign.
  Qed.
  Section More.
  Context (S : sch) (HS : sch_ok S).
  Notation est := (est (a_pol A) (eS S) (eG R) (eF R)).

  Lemma clf_more a p N w (e : est) more rs e' d : clf_created a p -> N = ca_states a -> Nmin <= ca_states a -> w = width_of (ca_counting a) (ca_states a) ->
    clf_at (R := R) irng_ok frng_ok S A True True (Inv w N) a p (Some d) e -> Forall (clf_op_phys A vw) more -> clf_run S A e more = Ret (rs, e') ->
    exists d', clf_at (R := R) irng_ok frng_ok S A True True (Inv w N) a p (Some d') e'.
  Proof.
    intros [Ha Hh Hl] HN HNm Hw Hat Hphys. assert (exists E1n E1p E2, laws (R := R) A irng_ok vw True True w N (Inv w N) E1n E1p E2) as (E1n & E1p & E2 & Lw).
    { destruct (wide_enough (ca_counting a) (ca_states a)) as [H1 H2]; [by destruct Ha as [_ [] _]|destruct Ha as [[] [] _]; unfold is_int in *; lia|].
      subst. apply HLaws; [done|lia]. }
    revert rs e'. revert Hphys. induction more as [|o more IH] using rev_ind; intros Hphys rs e' Hr; [injection Hr as _ <-; by exists d|].
    apply list.Forall_app in Hphys as [Hphys1 Hph]. apply list.Forall_cons in Hph as [Hph _].
    rewrite clf_run_snoc in Hr. apply obind_ret_inv in Hr as ([rs1 e1] & E1 & Hr). apply obind_ret_inv in Hr as ([r e2] & Estep & Hr). injection Hr as _ <-.
    destruct (IH Hphys1 _ _ E1) as (d1 & Hat1). clear IH E1 Hat.
    pose proof (clf_step_spec (R := R) irng_ok frng_ok HR S HS A vw True True w N _ _ _ _ Lw a Ha HN Hw p (Some d1) e1 o Hh Hl Hat1) as H.
    specialize (H Hph (clf_op_side_true (R := R) irng_ok A vw _ _ _ _)). rewrite Estep in H. destruct H as (Hat2 & _).
    assert (exists d', clf_dims_after (Some d1) o r = Some d') as (d' & Ed) by (destruct o; cbn; try (by eexists); destruct r as [[]| | | | | ]; by eexists).
    rewrite Ed in Hat2. by exists d'.
  Qed.
  (** what such an estimator saves *)
  Lemma clf_within a p (e : est) d : clf_created a p ->
    clf_at (R := R) irng_ok frng_ok S A True True (Inv (width_of (ca_counting a) (ca_states a)) (ca_states a)) a p (Some d) e ->
    exists doc rows ws, clf_to_json C S e = Ret doc /\ rows_of (reparse doc) = Some rows /\ weights_of (reparse doc) = Some ws /\
      Z.of_nat (length rows) = Z.of_nat d.1 * ca_clauses a /\ Forall (fun row => length row = d.2) rows /\
      Forall (Forall (fun z => - ca_states a <= z < ca_states a)) rows /\
      if ca_weighted a then 2 * Z.of_nat (length ws) = Z.of_nat d.1 * ca_clauses a /\ Forall (fun v => 0 <= v < ca_max_weight a) ws else ws = [].
  Proof.
    intros Hc Hat. destruct d as [L nf]. destruct Hat as [(Hv & Hdim & [HI Hws _ _ _ _ _]) _]. cbn [fst snd] in *.
    destruct (HInv _ _ _ _ _ _ HI) as (Hg & Fw & Fr & Fc & Hin). destruct (clf_opl_facts a Hv) as (Ecl & _).
    destruct (saved_parts A vw C (HC) "classifier" S e (proj1 Hg)) as (doc & Ed & Hr & Hw & _).
    destruct (rows_within _ _ _ _ Fr Fc Hin) as (H1 & H2 & H3).
    exists doc. do 2 eexists. split; [exact Ed|]. split; [exact Hr|]. split; [exact Hw|]. split.
    { refine (eq_trans (f_equal Z.of_nat H1) _). rewrite Ecl, !Nat2Z.inj_mul. ring. }
    split; [exact H2|]. split; [exact H3|]. clear Hr Hw Ed H1 H2 H3.
    unfold weights_ok in Hws. destruct (ca_weighted a); [|done]. destruct Hws as [Hl Hws]. split.
    - refine (eq_trans (f_equal (fun k => 2 * Z.of_nat k) Hl) _). rewrite Ecl, !Nat2Z.inj_mul. ring.
    - eapply list.Forall_impl; [exact Hws|]. intros v Hv'. cbv beta in Hv'. lia.
  Qed.
  Lemma reg_more a p N w (e : est) more rs e' d : reg_created a p -> N = ra_states a -> Nmin <= ra_states a -> w = width_of (ra_counting a) (ra_states a) ->
    reg_at (R := R) irng_ok S A True True (Inv w N) a p (Some d) e -> Forall (reg_op_phys A vw) more -> reg_run S A e more = Ret (rs, e') ->
    exists d', reg_at (R := R) irng_ok S A True True (Inv w N) a p (Some d') e'.
  Proof.
    intros [Ha Hh] HN HNm Hw Hat Hphys. assert (exists E1n E1p E2, laws (R := R) A irng_ok vw True True w N (Inv w N) E1n E1p E2) as (E1n & E1p & E2 & Lw).
    { destruct (wide_enough (ra_counting a) (ra_states a)) as [H1 H2]; [by destruct Ha as [_ [] _]|destruct Ha as [[] [] _]; unfold is_int in *; lia|].
      subst. apply HLaws; [done|lia]. }
    revert rs e'. revert Hphys. induction more as [|o more IH] using rev_ind; intros Hphys rs e' Hr; [injection Hr as _ <-; by exists d|].
    apply list.Forall_app in Hphys as [Hphys1 Hph]. apply list.Forall_cons in Hph as [Hph _].
    rewrite reg_run_snoc in Hr. apply obind_ret_inv in Hr as ([rs1 e1] & E1 & Hr). apply obind_ret_inv in Hr as ([r e2] & Estep & Hr). injection Hr as _ <-.
    destruct (IH Hphys1 _ _ E1) as (d1 & Hat1). clear IH E1 Hat.
    pose proof (reg_step_spec (R := R) irng_ok frng_ok HR S HS A vw True True w N _ _ _ _ Lw a Ha HN Hw p (Some d1) e1 o Hh Hat1) as H.
    specialize (H Hph (reg_op_side_true (R := R) irng_ok A vw _ _ _ _)). rewrite Estep in H. destruct H as (Hat2 & _).
    assert (exists d', reg_dims_after (Some d1) o r = Some d') as (d' & Ed) by (destruct o; cbn; try (by eexists); destruct r as [[]| | ]; by eexists).
    rewrite Ed in Hat2. by exists d'.
  Qed.
  Lemma reg_within a p (e : est) nf : reg_created a p ->
    reg_at (R := R) irng_ok S A True True (Inv (width_of (ra_counting a) (ra_states a)) (ra_states a)) a p (Some nf) e ->
    exists doc rows ws, reg_to_json C S e = Ret doc /\ rows_of (reparse doc) = Some rows /\ weights_of (reparse doc) = Some ws /\
      Z.of_nat (length rows) = ra_clauses a /\ Forall (fun row => length row = nf) rows /\
      Forall (Forall (fun z => - ra_states a <= z < ra_states a)) rows /\
      if ra_weighted a then 2 * Z.of_nat (length ws) = ra_clauses a /\ Forall (fun v => 0 <= v < ra_max_weight a) ws else ws = [].
  Proof.
    intros Hc Hat. destruct Hat as [(Hv & Hdim & [HI Hws _ _ _ _]) _]. cbn [fst snd] in *.
    destruct (HInv _ _ _ _ _ _ HI) as (Hg & Fw & Fr & Fc & Hin). destruct (reg_n_facts a Hv) as (Ecl & _).
    destruct (saved_parts A vw C (HC) "regressor" S e (proj1 Hg)) as (doc & Ed & Hr & Hw & _).
    destruct (rows_within _ _ _ _ Fr Fc Hin) as (H1 & H2 & H3).
    exists doc. do 2 eexists. split; [exact Ed|]. split; [exact Hr|]. split; [exact Hw|]. split.
    { refine (eq_trans (f_equal Z.of_nat H1) _). rewrite Ecl, !Nat2Z.inj_mul. ring. }
    split; [exact H2|]. split; [exact H3|]. clear Hr Hw Ed H1 H2 H3.
    unfold weights_ok in Hws. destruct (ra_weighted a); [|done]. destruct Hws as [Hl Hws]. split.
    - refine (eq_trans (f_equal (fun k => 2 * Z.of_nat k) Hl) _). rewrite Ecl, ?Nat2Z.inj_mul. ring.
    - eapply list.Forall_impl; [exact Hws|]. intros v Hv'. cbv beta in Hv'. lia.
  Qed.
  End More.

  (** ** Documents as texts *)
  Lemma saved_bytes kind (S : sch) (e : est (a_pol A) (eS S) irng frng) doc : nm_wf (ta_matrix (e_ta e)) -> to_json C S kind e = Ret doc ->
    bytes_of (reparse doc) = Some (nm_w (ta_matrix (e_ta e)) / 8).
  Proof.
    intros Hwf H. unfold to_json, ta_to_json in H. rewrite nm_saved in H by done. cbn [obind] in H. injection H as <-.
    assert (forall (m v : json) (q : a_pol A), last_value (("matrix", m) :: ("weights", v) :: pc_write C q)%string "matrix" = Some m) as Hta
      by (intros; destruct HC; reflexivity).
    unfold bytes_of. erewrite member_saved by reflexivity. cbn [mbind option_bind]. erewrite member_saved by apply Hta. cbn [mbind option_bind].
    erewrite member_saved by reflexivity. cbn [mbind option_bind]. reflexivity.
  Qed.
  (** saving what was loaded gives back the learning state *)
  Lemma saved_again kind (S : sch) (e : est (a_pol A) (eS S) irng frng) j : nm_wf (ta_matrix (e_ta e)) ->
    rows_of j = Some (map (nm_row (ta_matrix (e_ta e))) (seq 0 (nm_rows (ta_matrix (e_ta e))))) -> weights_of j = Some (ta_weights (e_ta e)) ->
    exists doc, to_json C S kind e = Ret doc /\ rows_of (reparse doc) = rows_of j /\ weights_of (reparse doc) = weights_of j.
  Proof.
    intros Hwf Hr Hw. destruct (saved_parts A vw C (HC) kind S e Hwf) as (doc & Ed & Er & Ew & _).
    exists doc. split; [exact Ed|]. split; [by rewrite Er, Hr|by rewrite Ew, Hw].
  Qed.

  Lemma clf_document_edited S1 S2 : sch_ok S1 -> sch_ok S2 -> forall a p os rs (e : est (a_pol A) (eS S1) (eG R) (eF R)) L nf t doc t' doc',
    trains_well R (ca_states a) A vw -> Nmin <= ca_states a -> clf_created a p -> clf_made_text p -> finite_C1 p -> clf_history S1 A vw p os rs e -> clf_dims_of os rs = Some (L, nf) ->
    clf_to_json_string C S1 e = Ret t -> json_text t doc -> json_text t' doc' -> same_rest doc doc' ->
    sound_state (Z.of_nat L * ca_clauses a) (Z.of_nat nf) (ca_weighted a) (ca_max_weight a) doc' -> extra (Z.of_nat L * ca_clauses a) (Z.of_nat nf) doc' ->
    forall e0 : est (a_pol A) (eS S2) irng frng, exists e' m, clf_from_json_string C S2 e0 t' = Ret e' /\ read_classifier doc' = Some m /\
      e_params e' = e_params e /\
      (exists again, clf_to_json C S2 e' = Ret again /\ rows_of (reparse again) = rows_of doc' /\ weights_of (reparse again) = weights_of doc') /\
      (forall x, v_phys vw x -> v_ok vw nf x -> exists e1 e2 w,
        clf_decision1 (R := R) S2 A e' x = Ret (Right (document_votes m (v_x vw x)), e1) /\
        clf_predict1 (R := R) S2 A e' x = Ret (Right (Z.of_nat w), e2) /\ wins m (v_x vw x) w) /\
      (bytes_of doc' = bytes_of doc -> (forall rows, rows_of doc' = Some rows -> Forall (Forall (fun z => - ca_states a <= z < ca_states a)) rows) ->
        forall more rs' e'', Forall (clf_op_phys A vw) more -> clf_run (R := R) S2 A e' more = Ret (rs', e'') ->
        exists L' nf' again rows ws, clf_to_json C S2 e'' = Ret again /\ rows_of (reparse again) = Some rows /\ weights_of (reparse again) = Some ws /\
          Z.of_nat (length rows) = Z.of_nat L' * ca_clauses a /\ Forall (fun row => length row = nf') rows /\
          Forall (Forall (fun z => - ca_states a <= z < ca_states a)) rows /\
          if ca_weighted a then 2 * Z.of_nat (length ws) = Z.of_nat L' * ca_clauses a /\ Forall (fun v => 0 <= v < ca_max_weight a) ws else ws = []).
  Proof.
    intros HS1 HS2 a p os rs e L nf t doc t' doc' Ht0 HN Hc Hm Hf Hh Hd Et Ht Ht' Hrest Hsound Hex e0.
    destruct (clf_text sh l fuel b1 b2 Hsh A vw C (HC) S1 p os rs e HS1 Hm Hh) as (d & t1 & Ej & Et1 & Htx).
    pose proof (eq_trans (eq_sym Et) Et1) as Eq. injection Eq as <-.
    assert (doc = reparse d) as -> by exact (stands_unique t _ _ (text_stands _ _ Ht) (text_stands _ _ Htx)).
    destruct (clf_made_facts p (clf_made_text_made p Hm)) as (_ & Hst & Hfin).
    destruct (clf_edited S1 S2 HS1 HS2 a p os rs e e0 L nf d doc' Hc Hst (Hfin Hf) Hh Hd Ej Hrest Hsound Hex)
      as (e' & m & El & Em & Ep & _ & _ & Hwf & Hr & Hw & Hcont & Hans).
    exists e', m. split; [exact (eq_trans (proj1 (from_stand C S2 e0 t' _ (text_stands _ _ Ht'))) El)|]. split; [exact Em|]. split; [exact Ep|].
    split; [exact (saved_again "classifier" S2 e' doc' Hwf Hr Hw)|]. split; [exact Hans|].
    intros Hb Hin more rs' e'' Hph Hrun.
    assert (bytes_of (reparse d) = Some (width_of (ca_counting a) (ca_states a) / 8)) as Eb.
    { destruct (good_width (R := R) irng_ok frng_ok HR S1 HS1 A vw a p os rs e L nf Ht0 Hc Hh Hd) as [Hwf0 Fw].
      refine (eq_trans (saved_bytes "classifier" S1 e d Hwf0 Ej) _). exact (f_equal (fun z => Some (z / 8)) Fw). }
    rewrite Eb in Hb. specialize (Hcont Hb Hin).
    destruct (clf_more S2 HS2 a p _ _ e' more rs' e'' (L, nf) Hc eq_refl HN eq_refl Hcont Hph Hrun) as ([L' nf'] & Hat).
    destruct (clf_within S2 a p e'' (L', nf') Hc Hat) as (again & rows & ws & H). exists L', nf', again, rows, ws. exact H.
  Qed.
  Lemma reg_document_edited S1 S2 : sch_ok S1 -> sch_ok S2 -> forall a p os rs (e : est (a_pol A) (eS S1) (eG R) (eF R)) nf t doc t' doc',
    trains_well R (ra_states a) A vw -> Nmin <= ra_states a -> reg_created a p -> reg_made_text p -> finite_C1 p -> reg_history S1 A vw p os rs e -> reg_dims_of os rs = Some nf ->
    reg_to_json_string C S1 e = Ret t -> json_text t doc -> json_text t' doc' -> same_rest doc doc' ->
    sound_state (ra_clauses a) (Z.of_nat nf) (ra_weighted a) (ra_max_weight a) doc' -> extra (ra_clauses a) (Z.of_nat nf) doc' ->
    forall e0 : est (a_pol A) (eS S2) irng frng, exists e' m, reg_from_json_string C S2 e0 t' = Ret e' /\ read_regressor doc' = Some m /\
      e_params e' = e_params e /\
      (exists again, reg_to_json C S2 e' = Ret again /\ rows_of (reparse again) = rows_of doc' /\ weights_of (reparse again) = weights_of doc') /\
      (forall x, v_phys vw x -> v_ok vw nf x -> exists e1, reg_predict1 (R := R) S2 A e' x = Ret (Right (document_response m (v_x vw x)), e1)) /\
      (bytes_of doc' = bytes_of doc -> (forall rows, rows_of doc' = Some rows -> Forall (Forall (fun z => - ra_states a <= z < ra_states a)) rows) ->
        forall more rs' e'', Forall (reg_op_phys A vw) more -> reg_run (R := R) S2 A e' more = Ret (rs', e'') ->
        exists nf' again rows ws, reg_to_json C S2 e'' = Ret again /\ rows_of (reparse again) = Some rows /\ weights_of (reparse again) = Some ws /\
          Z.of_nat (length rows) = ra_clauses a /\ Forall (fun row => length row = nf') rows /\
          Forall (Forall (fun z => - ra_states a <= z < ra_states a)) rows /\
          if ra_weighted a then 2 * Z.of_nat (length ws) = ra_clauses a /\ Forall (fun v => 0 <= v < ra_max_weight a) ws else ws = []).
  Proof.
    intros HS1 HS2 a p os rs e nf t doc t' doc' Ht0 HN Hc Hm Hf Hh Hd Et Ht Ht' Hrest Hsound Hex e0.
    destruct (reg_text sh l fuel b1 b2 Hsh A vw C (HC) S1 p os rs e HS1 Hm Hh) as (d & t1 & Ej & Et1 & Htx).
    pose proof (eq_trans (eq_sym Et) Et1) as Eq. injection Eq as <-.
    assert (doc = reparse d) as -> by exact (stands_unique t _ _ (text_stands _ _ Ht) (text_stands _ _ Htx)).
    destruct (reg_made_facts p (reg_made_text_made p Hm)) as (_ & Hst & Hfin).
    destruct (reg_edited S1 S2 HS1 HS2 a p os rs e e0 nf d doc' Hc Hst (Hfin Hf) Hh Hd Ej Hrest Hsound Hex)
      as (e' & m & El & Em & Ep & _ & _ & Hwf & Hr & Hw & Hcont & Hans).
    exists e', m. split; [exact (eq_trans (proj2 (from_stand C S2 e0 t' _ (text_stands _ _ Ht'))) El)|]. split; [exact Em|]. split; [exact Ep|].
    split; [exact (saved_again "regressor" S2 e' doc' Hwf Hr Hw)|]. split; [exact Hans|].
    intros Hb Hin more rs' e'' Hph Hrun.
    assert (bytes_of (reparse d) = Some (width_of (ra_counting a) (ra_states a) / 8)) as Eb.
    { destruct (good_width_reg (R := R) irng_ok frng_ok HR S1 HS1 A vw a p os rs e nf Ht0 Hc Hh Hd) as [Hwf0 Fw].
      refine (eq_trans (saved_bytes "regressor" S1 e d Hwf0 Ej) _). exact (f_equal (fun z => Some (z / 8)) Fw). }
    rewrite Eb in Hb. specialize (Hcont Hb Hin).
    destruct (reg_more S2 HS2 a p _ _ e' more rs' e'' nf Hc eq_refl HN eq_refl Hcont Hph Hrun) as (nf' & Hat).
    destruct (reg_within S2 a p e'' nf' Hc Hat) as (again & rows & ws & H). exists nf', again, rows, ws. exact H.
  Qed.

  (** ** What is saved is sound *)
  Lemma clf_saved_sound S a p (e : est (a_pol A) (eS S) (eG R) (eF R)) L nf doc : clf_created a p ->
    clf_at (R := R) irng_ok frng_ok S A True True (Inv (width_of (ca_counting a) (ca_states a)) (ca_states a)) a p (Some (L, nf)) e ->
    clf_to_json C S e = Ret doc ->
    (exists w, bytes_of (reparse doc) = Some w /\ (Z.of_nat L * ca_clauses a * (Z.of_nat nf * w + 63) < 2 ^ 32 ->
      sound_state (Z.of_nat L * ca_clauses a) (Z.of_nat nf) (ca_weighted a) (ca_max_weight a) (reparse doc))) /\
    exists rows, rows_of (reparse doc) = Some rows /\ Forall (Forall (fun z => - ca_states a <= z < ca_states a)) rows.
  Proof.
    intros Hc Hat Ed.
    destruct (clf_within S a p e (L, nf) Hc Hat) as (doc' & rows & ws & Ed' & Er & Ews & Hlen & Hrow & Hin & HW).
    pose proof (eq_trans (eq_sym Ed) Ed') as E. injection E as <-. cbn [fst snd] in *.
    destruct Hat as [(Hv & Hdim & [HI _ _ _ _ _ _]) _]. cbn [fst snd] in *. destruct (HInv _ _ _ _ _ _ HI) as (Hg & Fw & _).
    destruct (wide_enough (ca_counting a) (ca_states a)) as [H1 H2]; [by destruct Hv as [[] []]|destruct Hv as [[] []]; unfold is_int in *; lia|].
    split; [|by exists rows].
    exists (width_of (ca_counting a) (ca_states a) / 8).
    assert (bytes_of (reparse doc) = Some (width_of (ca_counting a) (ca_states a) / 8)) as Eb.
    { refine (eq_trans (saved_bytes "classifier" S e doc (proj1 Hg) Ed) _). exact (f_equal (fun z => Some (z / 8)) Fw). }
    split; [exact Eb|]. intros HB. exact (sound_of_parts _ _ _ _ _ _ _ _ _ H1 (proj2 H2) Eb Er Ews Hlen Hrow Hin HW HB).
  Qed.
  Lemma reg_saved_sound S a p (e : est (a_pol A) (eS S) (eG R) (eF R)) nf doc : reg_created a p ->
    reg_at (R := R) irng_ok S A True True (Inv (width_of (ra_counting a) (ra_states a)) (ra_states a)) a p (Some nf) e ->
    reg_to_json C S e = Ret doc ->
    (exists w, bytes_of (reparse doc) = Some w /\ (ra_clauses a * (Z.of_nat nf * w + 63) < 2 ^ 32 ->
      sound_state (ra_clauses a) (Z.of_nat nf) (ra_weighted a) (ra_max_weight a) (reparse doc))) /\
    exists rows, rows_of (reparse doc) = Some rows /\ Forall (Forall (fun z => - ra_states a <= z < ra_states a)) rows.
  Proof.
    intros Hc Hat Ed.
    destruct (reg_within S a p e nf Hc Hat) as (doc' & rows & ws & Ed' & Er & Ews & Hlen & Hrow & Hin & HW).
    pose proof (eq_trans (eq_sym Ed) Ed') as E. injection E as <-.
    destruct Hat as [(Hv & Hdim & [HI _ _ _ _ _]) _]. cbn [fst snd] in *. destruct (HInv _ _ _ _ _ _ HI) as (Hg & Fw & _).
    destruct (wide_enough (ra_counting a) (ra_states a)) as [H1 H2]; [by destruct Hv as [_ [] _]|destruct Hv as [[] [] _]; unfold is_int in *; lia|].
    split; [|by exists rows].
    exists (width_of (ra_counting a) (ra_states a) / 8).
    assert (bytes_of (reparse doc) = Some (width_of (ra_counting a) (ra_states a) / 8)) as Eb.
    { refine (eq_trans (saved_bytes "regressor" S e doc (proj1 Hg) Ed) _). exact (f_equal (fun z => Some (z / 8)) Fw). }
    split; [exact Eb|]. intros HB. exact (sound_of_parts _ _ _ _ _ _ _ _ _ H1 (proj2 H2) Eb Er Ews Hlen Hrow Hin HW HB).
  Qed.
End Loaded.


(** ** Such documents exist: any other learning state in place of the saved one *)
Lemma writable_member ms k v : writable (jobject ms) -> last_value ms k = Some v -> writable v.
Proof.
  intros H Hv%members_in. rewrite jobject_members in H. apply writable_obj in H as [_ H]. exact (proj2 (proj1 (list.Forall_forall _ _) H _ Hv)).
Qed.
Lemma sound_of_state n f weighted maxw doc doc' : member doc' "ta_state"%string = member doc "ta_state"%string -> sound_state n f weighted maxw doc -> sound_state n f weighted maxw doc'.
Proof. unfold sound_state, bytes_of, rows_of, weights_of. intros ->. exact id. Qed.
Lemma other_state {P} (C : pol_codec P) kind (S : sch) (e : est P (eS S) irng frng) d st : to_json C S kind e = Ret d -> writable d -> writable st ->
  exists t doc, json_text t doc /\ same_rest (reparse d) doc /\ member doc "ta_state"%string = Some (reparse st).
Proof.
  intros Ed Hw Hs. unfold to_json in Ed. apply obind_ret_inv in Ed as (jt & _ & Ed). injection Ed as <-.
  set (j := jobject [("fgen", frng_to_json (e_fgen e)); ("igen", irng_to_json (e_igen e)); ("params", params_to_json (e_params e)); ("ta_state", st)]%string).
  assert (writable j) as Hj.
  { apply writable_object. repeat apply Forall_cons_2; try apply Forall_nil_2; cbn [fst snd]; (split; [lit|]); try exact Hs.
    - exact (writable_member _ "fgen"%string _ Hw eq_refl).
    - exact (writable_member _ "igen"%string _ Hw eq_refl).
    - exact (writable_member _ "params"%string _ Hw eq_refl). }
  destruct (dump_text j Hj) as (t & _ & Ht). exists t, (reparse j). split; [exact Ht|]. split.
  - unfold same_rest, j. split_and!.
    + rewrite !(fun ms => member_saved ms "igen"%string (irng_to_json (e_igen e))); reflexivity.
    + rewrite !(fun ms => member_saved ms "fgen"%string (frng_to_json (e_fgen e))); reflexivity.
    + rewrite !(fun ms => member_saved ms "params"%string (params_to_json (e_params e))); reflexivity.
  - unfold j. rewrite (fun ms => member_saved ms "ta_state"%string st); reflexivity.
Qed.
