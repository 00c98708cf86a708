(** * The mt.hpp generators satisfy the laws of random environments; equality of generators; bounded draws; the recurrence. *)
From Verif Require Export MtFacts.
From Verif Require Import FloatFacts.
From Coq Require Import Reals Lra.
From Flocq Require Import Core.Core BinarySingleNaN.
From stdpp Require Import list.
Local Open Scope Z_scope.

(** ** Result buffers hold values of their type *)
Section Res.
  Context {V : Type} (zero : V) (post : Z -> V) (T : V -> Prop) (Hz : T zero) (Hpost : forall y, w32 y -> T (post y)).
  Lemma res_init seed : Forall T (mt_res (mt_init zero seed)).
  Proof. apply Forall_replicate, Hz. Qed.
  Lemma res_rand good g : mt_ok good g -> Forall T (mt_res g) -> Forall T (mt_res (mt_rand zero post g).2).
  Proof.
    intros Hg HT. unfold mt_rand. cbn [snd mt_res]. case_decide; [|exact HT]. unfold mt_generate. cbn [mt_res].
    apply Forall_map. eapply Forall_impl; [apply regen_w32, (mo_mt _ _ Hg)|]. intros y Hy. cbn. apply Hpost, w32_temper, Hy.
  Qed.
End Res.

Definition irng_ok (g : irng) : Prop := mt_ok w32 g /\ Forall w32 (mt_res g).
Definition f_unit (v : float32) : Prop := f_lt (S754_zero false) v = true /\ f_le v f32_one = true.
Definition frng_ok (f : frng) : Prop := mt_ok f_unit f /\ Forall (fun v => fin32 v) (mt_res f).

Lemma irng_init_ok seed : irng_ok (irng_init seed).
Proof. split; [by apply init_ok|]. apply res_init. by split. Qed.
Lemma irng_next_ok g : irng_ok g -> w32 (irng_next g).1 /\ irng_ok (irng_next g).2.
Proof.
  intros [H1 H2]. unfold irng_next. destruct (rand_ok 0 (fun y => y) w32 (fun y H => H) g H1) as [J1 J2]. split; [exact J1|]. split; [exact J2|].
  by eapply res_rand.
Qed.
Lemma frng_post_ok y : w32 y -> f_unit (frng_post y) /\ fin32 (frng_post y).
Proof.
  intros Hy. destruct (frng_post_spec y Hy) as (F & [B1 B2] & _). split; [|exact F].
  assert (fin32 (S754_zero false) /\ val (S754_zero false) = 0%R) as [Z1 Z2] by (split; [by split|done]).
  destruct one32 as [O1 O2]. split.
  - apply (ltb_spec 24 128); [done|done|]. by rewrite Z2.
  - apply (leb_spec 24 128); [done|done|]. by rewrite O2.
Qed.
Lemma frng_init_ok seed : frng_ok (frng_init seed).
Proof. split; [by apply init_ok|]. apply res_init. by split. Qed.
Lemma frng_next_ok f : frng_ok f -> f_unit (frng_next f).1 /\ frng_ok (frng_next f).2.
Proof.
  intros [H1 H2]. unfold frng_next. destruct (rand_ok (S754_zero false) frng_post f_unit (fun y H => proj1 (frng_post_ok y H)) f H1) as [J1 J2].
  split; [exact J1|]. split; [exact J2|]. eapply res_rand; [|exact H1|exact H2]. intros y Hy. by apply frng_post_ok.
Qed.

Lemma mt_rnd_ok sh l fuel b1 b2 : shuffle_ok sh -> rnd_ok (mt_rnd sh l fuel b1 b2) irng_ok frng_ok.
Proof.
  intros Hsh. constructor; cbn.
  - apply irng_init_ok.
  - intros g Hg. apply irng_next_ok, Hg.
  - apply frng_init_ok.
  - intros f Hf. destruct (frng_next_ok f Hf) as [[] ?]. done.
  - intros g n Hg. destruct (Hsh g n) as [Hp (k & ->)]. split; [exact Hp|].
    apply (draws_inv irng_next irng_ok w32 k g irng_next_ok Hg).
Qed.

(** ** The example shuffle is a shuffle *)
Lemma swap_perm l i j : swap l i j ≡ₚ l.
Proof.
  unfold swap. destruct (l !! i) as [a|] eqn:Ei; [|done]. destruct (l !! j) as [b|] eqn:Ej; [|done].
  assert (forall (i j a b : nat) (l : list nat), l !! i = Some a -> l !! j = Some b -> (i < j)%nat -> <[i:=b]> (<[j:=a]> l) ≡ₚ l) as Hw.
  { clear. intros i j a b l Hi Hj Hij. pose proof (lookup_lt_Some _ _ _ Hj) as Hl.
    rewrite <- (take_drop_middle l i a Hi) at 2. pose proof Hi as Hi'. apply lookup_lt_Some in Hi'.
    assert (drop (S i) l !! (j - S i)%nat = Some b) as Hj' by (rewrite lookup_drop; by replace (S i + (j - S i))%nat with j by lia).
    rewrite <- (take_drop_middle _ _ _ Hj').
    assert (<[i:=b]> (<[j:=a]> l) = take i l ++ b :: (take (j - S i) (drop (S i) l) ++ a :: drop (S (j - S i)) (drop (S i) l))) as ->.
    { rewrite <- (take_drop_middle l i a Hi) at 1. rewrite <- (take_drop_middle _ _ _ Hj') at 1.
      assert (length (take i l) = i) as L1 by (rewrite take_length; lia).
      assert (length (take (j - S i) (drop (S i) l)) = (j - S i)%nat) as L2 by (rewrite take_length, drop_length; lia).
      rewrite (insert_app_r_alt _ _ j) by lia. rewrite L1. rewrite (insert_app_r_alt _ _ i) by lia. rewrite L1. replace (i - i)%nat with 0%nat by lia.
      destruct (j - i)%nat as [|k] eqn:Ek; [lia|]. cbn [insert list_insert]. f_equal. f_equal.
      change (list_insert k a ?l) with (<[k:=a]> l). etrans; [apply (insert_app_r_alt _ _ k); lia|]. rewrite L2.
      replace (k - (j - S i))%nat with 0%nat by lia. done. }
    solve_Permutation. }
  destruct (decide (i < j)%nat); [by apply Hw|]. destruct (decide (i = j)) as [->|].
  - assert (a = b) as -> by congruence. rewrite list_insert_insert. by rewrite list_insert_id.
  - rewrite list_insert_commute by done. apply Hw; [done|done|lia].
Qed.
Lemma fy_shuffle_ok : shuffle_ok fy_shuffle.
Proof.
  intros g n. unfold fy_shuffle. generalize (seq 0 n) as l. generalize (n - 1)%nat as i. intros i. revert g.
  induction i as [|i IH]; intros g l; cbn [fy]; [split; [done|by exists 0%nat]|].
  destruct (irng_next g) as [r g1] eqn:Er. destruct (IH g1 (swap l (S i) (Z.to_nat (r mod (Z.of_nat (S i) + 1))))) as [I1 (k & I2)]. split.
  - rewrite I1. apply swap_perm.
  - exists (S k). rewrite I2. cbn [draws]. rewrite Er. by destruct (draws irng_next k g1).
Qed.

(** ** Bounded draws *)
Lemma next_below_spec g x : irng_ok g -> 0 < x < 4294967296 ->
  exists r g', irng_next_below g x = Ret (r, g') /\ 0 <= r < x /\ irng_ok g'.
Proof.
  intros Hg Hx. destruct (irng_next_ok g Hg) as [H1 H2]. unfold irng_next_below. destruct (irng_next g) as [r g']. cbn [fst snd] in *.
  destruct (Z.eqb_spec x 0); [lia|]. eexists _, _. split; [done|]. split; [apply Z.mod_pos_bound; lia|done].
Qed.
Lemma next_range_spec g a b : irng_ok g -> 0 <= a <= b -> b < int_max ->
  exists r g', irng_next_range g a b = Ret (r, g') /\ a <= r <= b /\ irng_ok g'.
Proof.
  unfold int_max. intros Hg Hab Hb. destruct (irng_next_ok g Hg) as [H1 H2]. unfold irng_next_range. destruct (irng_next g) as [r g']. cbn [fst snd] in *.
  assert (ci32 (b + 1) = Ret (b + 1)) as -> by (unfold ci32, in_i32, int_min, int_max; destruct (Z.leb_spec (-2147483648) (b + 1)), (Z.leb_spec (b + 1) 2147483647); (done || lia)).
  cbn [obind]. assert (ci32 (b + 1 - a) = Ret (b + 1 - a)) as -> by (unfold ci32, in_i32, int_min, int_max; destruct (Z.leb_spec (-2147483648) (b + 1 - a)), (Z.leb_spec (b + 1 - a) 2147483647); (done || lia)).
  cbn [obind]. rewrite (u32_id (b + 1 - a)) by (unfold w32; lia). destruct (Z.eqb_spec (b + 1 - a) 0); [lia|].
  pose proof (Z.mod_pos_bound r (b + 1 - a) ltac:(lia)). rewrite u32_id by (unfold w32; lia). eexists _, _. split; [done|]. split; [lia|done].
Qed.

(** ** Equality of generators *)
Lemma forallb_combine {A} (f : A -> A -> bool) l l' : Nat.eqb (length l) (length l') && forallb (fun p => f p.1 p.2) (combine l l') = true ->
  Forall2 (fun a b => f a b = true) l l'.
Proof.
  intros [H1 H2]%andb_true_iff. apply Nat.eqb_eq in H1. revert l' H1 H2. induction l as [|a l IH]; intros [|b l'] H1 H2; try done.
  cbn in H2. apply andb_true_iff in H2 as [H2 H3]. constructor; [exact H2|]. apply IH; [by injection H1|exact H3].
Qed.
Lemma Forall2_eqb l l' : Forall2 (fun a b => Z.eqb a b = true) l l' -> l = l'.
Proof. induction 1 as [|a b l l' H]; [done|]. by apply Z.eqb_eq in H as ->; subst. Qed.
Lemma combine_same {A} (f : A -> A -> bool) l : (forall x, f x x = true) -> forallb (fun p => f p.1 p.2) (combine l l) = true.
Proof. intros H. induction l as [|a l IH]; [done|]. cbn. by rewrite H, IH. Qed.
Lemma irng_eqb a b : mt_eqb Z.eqb a b = true <-> a = b.
Proof.
  split.
  - unfold mt_eqb. intros [[H1 H2]%andb_true_iff H3]%andb_true_iff. apply Nat.eqb_eq in H1.
    apply forallb_combine, Forall2_eqb in H2. apply forallb_combine, Forall2_eqb in H3. destruct a, b. cbn in *. by subst.
  - intros ->. unfold mt_eqb. rewrite !Nat.eqb_refl. cbn. rewrite !combine_same by apply Z.eqb_refl. done.
Qed.
Definition feqb : float32 -> float32 -> bool := SFeqb.
Lemma feqb_spec x y : fin32 x -> fin32 y -> feqb x y = true <-> val x = val y.
Proof.
  intros Hx Hy. destruct (fin_ex 24 128 x Hx) as (a & <- & Fa & Va). destruct (fin_ex 24 128 y Hy) as (b & <- & Fb & Vb).
  pose proof (Beqb_correct 24 128 a b Fa Fb) as H. unfold Beqb in H. unfold feqb. rewrite H, Va, Vb. case Req_bool_spec; by split.
Qed.
Lemma feqb_pos x y : fin32 x -> fin32 y -> f_unit x -> feqb x y = true -> x = y.
Proof.
  intros Hx Hy [H _] E. apply (feqb_spec x y Hx Hy) in E. apply (val_inj 24 128); [done|done|done|].
  apply (ltb_spec 24 128) in H; [|by split|done]. change (val (S754_zero false)) with 0%R in H. lra.
Qed.
Lemma Forall2_feqb l l' : Forall2 (fun a b => feqb a b = true) l l' -> Forall (fun v => fin32 v) l -> Forall (fun v => fin32 v) l' -> Forall f_unit l -> l = l'.
Proof.
  induction 1 as [|a b l l' H _ IH]; intros F1 F2 F3; [done|]. inversion F1; inversion F2; inversion F3; subst.
  f_equal; [by apply feqb_pos|by apply IH].
Qed.
(** equal generators have the same future (operator== compares floats, so the unused buffer of a generator that is about to regenerate
    is compared but not used) *)
Lemma frng_eqb_draws a b n : frng_ok a -> frng_ok b -> mt_eqb feqb a b = true -> (draws frng_next n a).1 = (draws frng_next n b).1.
Proof.
  intros [Ha Fa] [Hb Fb] H. unfold mt_eqb in H. apply andb_true_iff in H as [H H3]. apply andb_true_iff in H as [H1 H2]. apply Nat.eqb_eq in H1.
  apply forallb_combine in H2. apply forallb_combine, Forall2_eqb in H3.
  destruct n as [|n]; [done|].
  assert (frng_next a = frng_next b) as E; [|cbn [draws]; by rewrite E].
  destruct a as [ia ra ma], b as [ib rb mb]. cbn in H1, H2, H3, Fa, Fb. subst ib mb.
  unfold frng_next, mt_rand. cbn [mt_index]. destruct (decide (ia = 0%nat)) as [E0|E0]; [done|].
  rewrite (Forall2_feqb _ _ H2 Fa Fb (mo_good _ _ Ha E0)). done.
Qed.
Lemma irng_eqb_draws a b n : mt_eqb Z.eqb a b = true -> draws irng_next n a = draws irng_next n b.
Proof. by intros ->%irng_eqb. Qed.
Lemma frng_eqb_refl a : frng_ok a -> mt_eqb feqb a a = true.
Proof.
  intros [_ Fa]. unfold mt_eqb. rewrite !Nat.eqb_refl. cbn. rewrite (combine_same Z.eqb) by apply Z.eqb_refl. rewrite andb_true_r.
  induction Fa as [|x l Hx _ IH]; [done|]. cbn. rewrite IH, andb_true_r. by apply feqb_spec.
Qed.
(** a copy is equal to the original *)
Lemma assign_id {V} (good : V -> Prop) g : mt_ok good g -> mt_assign g = g.
Proof. intros [_ H1 H2 _ _]. destruct g. unfold mt_assign. cbn in *. by rewrite !take_ge by lia. Qed.

(** ** The recurrence *)
Record mt_words (seed : Z) (w : nat -> nat -> Z) : Prop := {
  mw_first : forall s, (s < 8)%nat -> w s 0%nat = (seed + Z.of_nat s) mod 4294967296;
  mw_seeded : forall s k, (s < 8)%nat -> (k < 623)%nat ->
    w s (S k) = (1812433253 * Z.lxor (w s k) (Z.shiftr (w s k) 30) + Z.of_nat (S k)) mod 4294967296;
  mw_next : forall s k, (s < 8)%nat ->
    let y := Z.land (w s k) 134217728 + Z.land (w s (S k)) 2147483647 in
    w s (k + 624)%nat = Z.lxor (Z.lxor (w s (k + 397)%nat) (Z.shiftr y 1)) (if Z.odd y then 2567483615 else 0) }.
Lemma words_streams seed : mt_words seed (fun s k => words seed (k * 8 + s)).
Proof.
  pose proof MTLEN_Z as CL. destruct (seed_spec seed) as (_ & _ & F & N).
  assert (forall i, (i < MTLEN)%nat -> words seed i = znth (mt_seed seed) i) as W0. { intros i Hi. exact (words_at seed 0 i Hi). }
  constructor.
  - intros s Hs. cbn [Nat.mul Nat.add]. rewrite W0 by lia. by apply F.
  - intros s k Hs Hk. rewrite !W0 by lia. rewrite N by (change NS with 8%nat; lia).
    replace (S k * 8 + s - NS)%nat with (k * 8 + s)%nat by (change NS with 8%nat; lia). unfold u32. f_equal. f_equal.
    rewrite Nat2Z.inj_add, Nat2Z.inj_mul. change (Z.of_nat 8) with 8. rewrite Z.div_add_l by lia. rewrite Z.div_small by lia. lia.
  - intros s k Hs y. replace ((k + 624) * 8 + s)%nat with (k * 8 + s + MTLEN)%nat by lia. rewrite words_next.
    replace (k * 8 + s + NS)%nat with (S k * 8 + s)%nat by (change NS with 8%nat; lia).
    replace (k * 8 + s + 397 * NS)%nat with ((k + 397) * 8 + s)%nat by (change NS with 8%nat; lia).
    unfold mt_twist. fold y. apply u32_id. pose proof (words_w32 seed ((k + 397) * 8 + s)) as H1.
    assert (w32 y) as Hy.
    { unfold y. assert (0 <= Z.land (words seed (k * 8 + s)) 134217728 < 268435456).
      { assert (0 <= Z.land (words seed (k * 8 + s)) 134217728) as H0 by (apply Z.land_nonneg; right; lia). split; [exact H0|].
        change 268435456 with (2 ^ 28). apply log2_lt; [exact H0|lia|].
        pose proof (Z.log2_land (words seed (k * 8 + s)) 134217728 (proj1 (words_w32 seed _)) ltac:(lia)) as HL.
        change (Z.log2 134217728) with 27 in HL. lia. }
      assert (0 <= Z.land (words seed (S k * 8 + s)) 2147483647 < 2147483648).
      { change 2147483647 with (Z.ones 31). rewrite Z.land_ones by lia. apply Z.mod_pos_bound. lia. }
      unfold w32. lia. }
    apply w32_lxor; [apply w32_lxor; [done|by apply w32_shiftr]|]. destruct (Z.odd y); unfold w32; lia.
Qed.
Lemma irng_stream seed : exists w, mt_words seed w /\
  forall n, (draws irng_next n (irng_init seed)).1 = map (fun i => mt_temper (w (i mod 8) (624 + i / 8))%nat) (seq 0 n).
Proof.
  exists (fun s k => words seed (k * 8 + s)). split; [apply words_streams|]. intros n.
  destruct (draws_after 0 (fun y => y) seed n) as [_ E]. etrans; [exact E|]. apply map_ext. intros i. f_equal. f_equal.
  pose proof MTLEN_Z as CL. pose proof (Nat.div_mod i 8 ltac:(lia)). lia.
Qed.
Lemma frng_stream seed : exists w, mt_words seed w /\
  forall n, (draws frng_next n (frng_init seed)).1 = map (fun i => frng_post (mt_temper (w (i mod 8) (624 + i / 8)))%nat) (seq 0 n).
Proof.
  exists (fun s k => words seed (k * 8 + s)). split; [apply words_streams|]. intros n.
  destruct (draws_after (S754_zero false) frng_post seed n) as [_ E]. etrans; [exact E|]. apply map_ext. intros i. f_equal. f_equal. f_equal.
  pose proof MTLEN_Z as CL. pose proof (Nat.div_mod i 8 ltac:(lia)). lia.
Qed.

(** ** peek *)
Lemma peek_next {V} (zero : V) post g : mt_index g <> 0%nat -> mt_peek zero g = (mt_rand zero post g).1.
Proof. intros H. unfold mt_peek, mt_rand. by rewrite decide_False by done. Qed.
Lemma first_draw : (irng_next (irng_init 42)).1 = 1608637542.
Proof. vm_compute. reflexivity. Qed.
Lemma peek_init seed : mt_peek 0 (irng_init seed) = 0.
Proof. unfold mt_peek, irng_init, mt_init. cbn [mt_index mt_res]. pose proof MTLEN_Z. destruct MTLEN; [lia|reflexivity]. Qed.
