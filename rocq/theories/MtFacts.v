(** * Facts about the generators of mt.hpp: invariants, streams, the recurrence, equality. *)
From Verif Require Export Mt.
From Verif Require Import FloatFacts.
From stdpp Require Import list.
Local Open Scope Z_scope.

Definition w32 (z : Z) : Prop := 0 <= z < 4294967296.
Lemma u32_w32 z : w32 (u32 z).
Proof. unfold w32, u32. apply Z.mod_pos_bound. lia. Qed.
Lemma u32_id z : w32 z -> u32 z = z.
Proof. unfold w32, u32. intros. by apply Z.mod_small. Qed.

Lemma MTLEN_Z : Z.of_nat MTLEN = 4992. Proof. reflexivity. Qed.
Lemma MTLEN_NS : MTLEN = (624 * NS)%nat. Proof. reflexivity. Qed.
Lemma NS_Z : Z.of_nat NS = 8. Proof. reflexivity. Qed.
Lemma MTSZ_Z : Z.of_nat MTSZ = 624. Proof. reflexivity. Qed.

(** ** 32-bit closure *)
Lemma log2_lt a n : 0 <= a -> 0 < n -> (a < 2 ^ n <-> Z.log2 a < n).
Proof. intros Ha Hn. destruct (decide (a = 0)) as [->|]; [rewrite Z.log2_nonpos by lia; split; intros; [lia|apply Z.pow_pos_nonneg; lia]|]. symmetry. rewrite <- (Z.log2_lt_pow2 a n) by lia. done. Qed.
Lemma w32_log2 a : w32 a <-> 0 <= a /\ Z.log2 a < 32.
Proof. unfold w32. change 4294967296 with (2 ^ 32). split; intros [H1 H2]; split; try done; by apply log2_lt. Qed.
Lemma w32_lxor a b : w32 a -> w32 b -> w32 (Z.lxor a b).
Proof.
  intros [Ha1 Ha2]%w32_log2 [Hb1 Hb2]%w32_log2. apply w32_log2. split; [apply Z.lxor_nonneg; lia|].
  pose proof (Z.log2_lxor a b Ha1 Hb1). lia.
Qed.
Lemma w32_shiftr a n : 0 <= n -> w32 a -> w32 (Z.shiftr a n).
Proof.
  intros Hn [H1 H2]. split; [by apply Z.shiftr_nonneg|]. rewrite Z.shiftr_div_pow2 by done.
  assert (0 < 2 ^ n) by (apply Z.pow_pos_nonneg; lia). assert (a / 2 ^ n <= a); [|lia]. apply Z.div_le_upper_bound; [done|]. nia.
Qed.
Lemma w32_land a b : w32 a -> 0 <= b -> w32 (Z.land a b).
Proof.
  intros [Ha1 Ha2]%w32_log2 Hb. apply w32_log2. split; [apply Z.land_nonneg; lia|].
  pose proof (Z.log2_land a b Ha1 Hb). lia.
Qed.
Lemma w32_temper y : w32 y -> w32 (mt_temper y).
Proof.
  intros Hy. unfold mt_temper.
  assert (forall z c, 0 <= c -> w32 (Z.land (u32 z) c)) as Hc by (intros; apply w32_land; [apply u32_w32|done]).
  repeat first [done | apply w32_lxor | apply w32_shiftr; [lia|] | apply Hc; lia].
Qed.
Lemma w32_twist a b c : w32 (mt_twist a b c). Proof. apply u32_w32. Qed.

(** ** In-place regeneration *)
Section Inplace.
  Context (f : nat -> list Z -> Z).
  Definition inplace (l : list Z) (k : nat) : list Z := fold_left (fun m i => <[i := f i m]> m) (seq 0 k) l.
  Lemma inplace_S l k : inplace l (S k) = <[k := f k (inplace l k)]> (inplace l k).
  Proof. unfold inplace. by rewrite seq_S, fold_left_app. Qed.
  Lemma inplace_length l k : length (inplace l k) = length l.
  Proof. induction k as [|k IH]; [done|]. by rewrite inplace_S, insert_length. Qed.
  Lemma inplace_ge l k j : (k <= j)%nat -> inplace l k !! j = l !! j.
  Proof. induction k as [|k IH]; intros Hj; [done|]. rewrite inplace_S, list_lookup_insert_ne by lia. apply IH. lia. Qed.
  Lemma inplace_lt l k k' j : (j < k)%nat -> (k <= k')%nat -> inplace l k' !! j = inplace l k !! j.
  Proof.
    intros Hj Hk. induction k' as [|k' IH]; [by replace k with 0%nat by lia|]. destruct (decide (k = S k')) as [->|]; [done|].
    rewrite inplace_S, list_lookup_insert_ne by lia. apply IH. lia.
  Qed.
  Lemma inplace_at l n j : (j < n)%nat -> (j < length l)%nat -> inplace l n !! j = Some (f j (inplace l j)).
  Proof. intros Hj Hl. rewrite (inplace_lt l (S j) n j) by lia. rewrite inplace_S, list_lookup_insert; [done|]. by rewrite inplace_length. Qed.
End Inplace.

Definition regen_f (i : nat) (mt : list Z) : Z :=
  let nxt := if decide (i < (MTSZ - 1) * NS)%nat then znth mt (i + NS) else znth mt (i - (MTSZ - 1) * NS) in
  let far := if decide (i < 227 * NS)%nat then znth mt (i + 397 * NS) else znth mt (i - 227 * NS) in
  mt_twist (znth mt i) nxt far.
Lemma regen_inplace mt : mt_regen mt = inplace regen_f mt MTLEN.
Proof. unfold mt_regen, inplace, mt_regen_step, regen_f. f_equal. Qed.
Lemma znth_lookup l i v : l !! i = Some v -> znth l i = v.
Proof. intros H. unfold znth. by apply nth_lookup_Some. Qed.
Lemma znth_eq l l' i : l !! i = l' !! i -> znth l i = znth l' i.
Proof. intros H. unfold znth. rewrite !nth_lookup. by rewrite H. Qed.

Lemma consts : Z.of_nat ((MTSZ - 1) * NS) = 4984 /\ Z.of_nat (227 * NS) = 1816 /\ Z.of_nat (397 * NS) = 3176 /\ Z.of_nat (MTSZ * NS) = 4992.
Proof. repeat split; reflexivity. Qed.

Lemma regen_length mt : length (mt_regen mt) = length mt.
Proof. rewrite regen_inplace. apply inplace_length. Qed.
(** entry [i] of the next generation *)
Lemma regen_at mt i : length mt = MTLEN -> (i < MTLEN)%nat ->
  znth (mt_regen mt) i =
    mt_twist (znth mt i)
      (if decide (i < (MTSZ - 1) * NS)%nat then znth mt (i + NS) else znth (mt_regen mt) (i - (MTSZ - 1) * NS))
      (if decide (i < 227 * NS)%nat then znth mt (i + 397 * NS) else znth (mt_regen mt) (i - 227 * NS)).
Proof.
  intros Hl Hi. rewrite regen_inplace. rewrite (znth_lookup _ i (regen_f i (inplace regen_f mt i))) by (apply inplace_at; [done|by rewrite Hl]).
  destruct consts as (C1 & C2 & C3 & C4). pose proof MTLEN_Z as CL. pose proof NS_Z as CN.
  unfold regen_f at 1. f_equal.
  - apply znth_eq, inplace_ge. lia.
  - case_decide; [apply znth_eq, inplace_ge; lia|]. apply znth_eq. symmetry. apply inplace_lt; lia.
  - case_decide; [apply znth_eq, inplace_ge; lia|]. apply znth_eq. symmetry. apply inplace_lt; lia.
Qed.
Lemma regen_w32 mt : length mt = MTLEN -> Forall w32 (mt_regen mt).
Proof.
  intros Hl. apply Forall_lookup. intros i v Hv. pose proof (lookup_lt_Some _ _ _ Hv) as Hi. rewrite regen_length, Hl in Hi.
  apply znth_lookup in Hv as <-. rewrite regen_at by done. apply w32_twist.
Qed.

(** ** Seeding *)
Lemma seed_tail_spec n : forall i w, length w = NS -> Forall w32 w ->
  length (mt_seed_tail n i w) = n /\ Forall w32 (mt_seed_tail n i w) /\
  forall k, (k < n)%nat -> znth (w ++ mt_seed_tail n i w) (k + NS) =
    u32 (1812433253 * Z.lxor (znth (w ++ mt_seed_tail n i w) k) (Z.shiftr (znth (w ++ mt_seed_tail n i w) k) 30) + (i + Z.of_nat k) / 8).
Proof.
  induction n as [|n IH]; intros i w Hw Hww; [split; [done|]; split; [constructor|]; intros; lia|]. destruct w as [|p w]; [by apply (f_equal Z.of_nat) in Hw; rewrite NS_Z in Hw|]. cbn [mt_seed_tail].
  set (v := u32 _). destruct (IH (i + 1) (w ++ [v])) as (L & W & K).
  { rewrite app_length in *. simpl in *. lia. }
  { apply Forall_app. split; [by inversion Hww|]. by constructor; [apply u32_w32|]. }
  split; [simpl; by rewrite L|]. split; [constructor; [apply u32_w32|done]|].
  intros [|k] Hk.
  - cbn [Nat.add]. change ((p :: w) ++ v :: ?t) with (p :: (w ++ v :: t)).
    change NS with (S (NS - 1)). cbn [znth nth]. unfold znth. rewrite app_nth2; simpl in Hw; [|rewrite <- Hw; simpl; lia].
    assert (NS - 1 - length w = 0)%nat as -> by (rewrite <- Hw; simpl; lia).
    cbn [nth]. unfold v. f_equal. f_equal. f_equal. lia.
  - specialize (K k ltac:(lia)). rewrite <- app_assoc in K. cbn [app] in K.
    change ((p :: w) ++ v :: ?t) with (p :: (w ++ v :: t)).
    unfold znth in *. cbn [Nat.add nth]. rewrite K. f_equal. f_equal. f_equal. lia.
Qed.
Lemma seed_spec seed :
  length (mt_seed seed) = MTLEN /\ Forall w32 (mt_seed seed) /\
  (forall s, (s < NS)%nat -> znth (mt_seed seed) s = u32 (seed + Z.of_nat s)) /\
  forall i, (NS <= i < MTLEN)%nat -> znth (mt_seed seed) i =
    u32 (1812433253 * Z.lxor (znth (mt_seed seed) (i - NS)) (Z.shiftr (znth (mt_seed seed) (i - NS)) 30) + Z.of_nat i / 8).
Proof.
  unfold mt_seed. set (first := map _ _).
  assert (length first = NS) as L1 by (unfold first; by rewrite map_length, seq_length).
  assert (Forall w32 first) as W1. { unfold first. apply Forall_lookup. intros i v Hv. apply list_lookup_fmap_inv in Hv as (j & -> & _). apply u32_w32. }
  destruct (seed_tail_spec (MTLEN - NS) 8 first L1 W1) as (L & W & K).
  pose proof MTLEN_Z as CL. pose proof NS_Z as CN.
  split; [rewrite app_length, L, L1; lia|]. split; [apply Forall_app; split; assumption|]. split.
  - intros s Hs. apply znth_lookup. rewrite lookup_app_l by lia. unfold first. change (map ?f ?l) with (f <$> l). rewrite list_lookup_fmap.
    rewrite lookup_seq_lt by done. cbn. f_equal. f_equal. lia.
  - intros i Hi. specialize (K (i - NS)%nat ltac:(lia)). replace (i - NS + NS)%nat with i in K by lia. rewrite K. f_equal. f_equal. f_equal. lia.
Qed.

Opaque mt_regen mt_seed MTLEN.
(** ** Draws *)
Section Draws.
  Context {G V : Type} (next : G -> V * G).
  Lemma draws_length n g : length (draws next n g).1 = n.
  Proof.
    revert g. induction n as [|n IH]; intros g; [done|]. cbn [draws]. destruct (next g) as [v g1]. specialize (IH g1).
    destruct (draws next n g1). simpl in *. by rewrite IH.
  Qed.
  Lemma draws_snoc n g : (draws next (S n) g).1 = (draws next n g).1 ++ [(next (draws next n g).2).1] /\
    (draws next (S n) g).2 = (next (draws next n g).2).2.
  Proof.
    revert g. induction n as [|n IH]; intros g; [cbn [draws fst snd]; destruct (next g); by split|].
    assert (forall m h, draws next (S m) h = ((next h).1 :: (draws next m (next h).2).1, (draws next m (next h).2).2)) as U.
    { intros m h. cbn [draws]. destruct (next h) as [v h1]. cbn [fst snd]. by destruct (draws next m h1). }
    rewrite (U (S n) g), (U n g). cbn [fst snd]. destruct (IH (next g).2) as [-> ->]. done.
  Qed.
  Lemma draws_inv (P : G -> Prop) (Q : V -> Prop) n g : (forall g, P g -> Q (next g).1 /\ P (next g).2) -> P g ->
    Forall Q (draws next n g).1 /\ P (draws next n g).2.
  Proof.
    intros HP Hg. induction n as [|n IH]; [by split; [constructor|]|]. destruct (draws_snoc n g) as [-> ->]. destruct IH as [I1 I2].
    destruct (HP _ I2) as [J1 J2]. split; [|done]. apply Forall_app. split; [done|]. by constructor.
  Qed.
  Lemma draws_add n m g : (draws next (n + m) g).2 = (draws next m (draws next n g).2).2.
  Proof.
    induction m as [|m IH]; [by rewrite Nat.add_0_r|]. rewrite Nat.add_succ_r.
    destruct (draws_snoc (n + m) g) as [_ ->]. destruct (draws_snoc m (draws next n g).2) as [_ ->]. by rewrite IH.
  Qed.
End Draws.

(** ** Invariant of a generator *)
Record mt_ok {V} (good : V -> Prop) (g : mt_state V) : Prop := {
  mo_index : (mt_index g < MTLEN)%nat;
  mo_res : length (mt_res g) = MTLEN;
  mo_mt : length (mt_mt g) = MTLEN;
  mo_words : Forall w32 (mt_mt g);
  mo_good : mt_index g <> 0%nat -> Forall good (mt_res g) }.

Section Gen.
  Context {V : Type} (zero : V) (post : Z -> V) (good : V -> Prop) (Hpost : forall y, w32 y -> good (post y)).
  Lemma init_ok seed : mt_ok good (mt_init zero seed).
  Proof.
    destruct (seed_spec seed) as (L & W & _). constructor; cbn [mt_init mt_index mt_res mt_mt].
    - pose proof MTLEN_Z. lia.
    - apply replicate_length.
    - exact L.
    - exact W.
    - intros []. reflexivity.
  Qed.
  Lemma generate_ok g : mt_ok good g -> mt_ok good (mt_generate post g) /\ Forall good (mt_res (mt_generate post g)).
  Proof.
    intros [Hi Hr Hm Hw Hg]. pose proof (regen_w32 _ Hm) as W.
    assert (Forall good (map (fun y => post (mt_temper y)) (mt_regen (mt_mt g)))) as Hgd.
    { apply Forall_map. eapply Forall_impl; [exact W|]. intros y Hy. cbn. apply Hpost, w32_temper, Hy. }
    split; [|exact Hgd]. unfold mt_generate. constructor; cbn [mt_index mt_res mt_mt].
    - exact Hi.
    - by rewrite map_length, regen_length.
    - by rewrite regen_length.
    - exact W.
    - intros _. exact Hgd.
  Qed.
  Lemma rand_ok g : mt_ok good g -> good (mt_rand zero post g).1 /\ mt_ok good (mt_rand zero post g).2.
  Proof.
    intros Hg. unfold mt_rand. set (g' := if decide _ then _ else _).
    assert (mt_ok good g' /\ Forall good (mt_res g')) as [Hg' Hgd].
    { unfold g'. case_decide as H0; [by apply generate_ok|]. split; [done|]. by apply (mo_good _ _ Hg). }
    clearbody g'. clear Hg. destruct Hg' as [Hi Hr Hm Hw Hg]. cbn [fst snd]. split.
    - rewrite <- Hr in Hi. apply lookup_lt_is_Some in Hi as [v Hv]. rewrite (nth_lookup_Some _ _ _ _ Hv). by apply (Forall_lookup_1 _ _ _ _ Hgd Hv).
    - constructor; cbn [mt_index mt_res mt_mt]; try done.
      pose proof MTLEN_Z. case_decide; lia.
  Qed.

  (** the words of successive generations, in the order in which they are tempered and handed out *)
  Definition words (seed : Z) (i : nat) : Z := znth (Nat.iter (i / MTLEN)%nat mt_regen (mt_seed seed)) (i mod MTLEN)%nat.
  Lemma words_at seed q r : (r < MTLEN)%nat -> words seed (q * MTLEN + r) = znth (Nat.iter q mt_regen (mt_seed seed)) r.
  Proof.
    intros Hr. unfold words. rewrite Nat.div_add_l by lia. rewrite (Nat.div_small r) by done. rewrite Nat.add_0_r.
    rewrite Nat.add_comm, Nat.mod_add by lia. by rewrite Nat.mod_small.
  Qed.
  Lemma iter_S q (x : list Z) : Nat.iter (S q) mt_regen x = mt_regen (Nat.iter q mt_regen x).
  Proof. exact eq_refl. Qed.
  Lemma iter_length seed q : length (Nat.iter q mt_regen (mt_seed seed)) = MTLEN.
  Proof. induction q as [|q IH]; [apply seed_spec|]. cbn [Nat.iter nat_rect]. rewrite regen_length. exact IH. Qed.
  Lemma iter_w32 seed q : Forall w32 (Nat.iter q mt_regen (mt_seed seed)).
  Proof. destruct q as [|q]; [apply seed_spec|]. cbn [Nat.iter nat_rect]. apply regen_w32, iter_length. Qed.
  Lemma words_w32 seed i : w32 (words seed i).
  Proof.
    unfold words. assert (i mod MTLEN < MTLEN)%nat as Hr by (apply Nat.mod_upper_bound; pose proof MTLEN_Z; lia).
    rewrite <- (iter_length seed (i / MTLEN)) in Hr at 2. apply lookup_lt_is_Some in Hr as [v Hv]. rewrite (znth_lookup _ _ _ Hv).
    exact (Forall_lookup_1 _ _ _ _ (iter_w32 seed _) Hv).
  Qed.
  Lemma words_next seed i : words seed (i + MTLEN) = mt_twist (words seed i) (words seed (i + NS)) (words seed (i + 397 * NS)).
  Proof.
    pose proof MTLEN_Z as CL. pose proof NS_Z as CN. destruct consts as (C1 & C2 & C3 & C4).
    assert (MTLEN <> 0)%nat as Hn by lia. set (q := (i / MTLEN)%nat). set (r := (i mod MTLEN)%nat).
    assert (i = q * MTLEN + r)%nat as Ei by (unfold q, r; rewrite Nat.mul_comm; apply Nat.div_mod; done).
    assert (r < MTLEN)%nat as Hr by (apply Nat.mod_upper_bound; done). clearbody q r. subst i.
    replace (q * MTLEN + r + MTLEN)%nat with (S q * MTLEN + r)%nat by lia. rewrite !words_at by done.
    rewrite !iter_S. pose proof (iter_length seed q) as Hm. set (m := Nat.iter q mt_regen (mt_seed seed)) in *.
    rewrite (regen_at m r Hm Hr). f_equal.
    - case_decide.
      + rewrite <- Nat.add_assoc, words_at by lia. exact eq_refl.
      + replace (q * MTLEN + r + NS)%nat with (S q * MTLEN + (r - (MTSZ - 1) * NS))%nat by lia. rewrite words_at by lia. rewrite iter_S. exact eq_refl.
    - case_decide.
      + rewrite <- Nat.add_assoc, words_at by lia. exact eq_refl.
      + replace (q * MTLEN + r + 397 * NS)%nat with (S q * MTLEN + (r - 227 * NS))%nat by lia. rewrite words_at by lia. rewrite iter_S. exact eq_refl.
  Qed.

  (** the state after [n] draws *)
  Record after (seed : Z) (n : nat) (g : mt_state V) : Prop := {
    af_index : mt_index g = (n mod MTLEN)%nat;
    af_mt : mt_mt g = Nat.iter (if decide (n mod MTLEN = 0)%nat then n / MTLEN else S (n / MTLEN))%nat mt_regen (mt_seed seed);
    af_res : (n mod MTLEN <> 0)%nat -> mt_res g = map (fun y => post (mt_temper y)) (mt_mt g) }.
  Lemma after_init seed : after seed 0 (mt_init zero seed).
  Proof.
    assert (MTLEN <> 0)%nat as Hn by (pose proof MTLEN_Z; lia).
    constructor; rewrite ?Nat.mod_0_l, ?Nat.div_0_l by done; cbn [mt_init mt_index mt_mt mt_res]; [done| |done].
    by rewrite decide_True by done.
  Qed.
  Lemma after_next seed n g : after seed n g ->
    (mt_rand zero post g).1 = post (mt_temper (words seed (MTLEN + n))) /\ after seed (S n) (mt_rand zero post g).2.
  Proof.
    intros [Hi Hm Hr]. pose proof MTLEN_Z as CL. assert (MTLEN <> 0)%nat as Hn by lia.
    set (q := (n / MTLEN)%nat) in *. set (r := (n mod MTLEN)%nat) in *.
    assert (n = q * MTLEN + r)%nat as En by (unfold q, r; rewrite Nat.mul_comm; apply Nat.div_mod; done).
    assert (r < MTLEN)%nat as Hrl by (apply Nat.mod_upper_bound; done). clearbody q r. subst n.
    pose proof (iter_length seed (S q)) as Hml. pose proof (iter_S q (mt_seed seed)) as Emm.
    set (m := Nat.iter (S q) mt_regen (mt_seed seed)) in *.
    unfold mt_rand. set (g' := if decide (mt_index g = 0%nat) then _ else _).
    assert (mt_index g' = r /\ mt_mt g' = m /\ mt_res g' = map (fun y => post (mt_temper y)) m) as (Gi & Gm & Gr).
    { unfold g'. rewrite Hi. destruct (decide (r = 0)%nat) as [E0|E0].
      - unfold mt_generate. cbn [mt_index mt_mt mt_res]. rewrite Hm, <- Emm. split; [exact Hi|]. by split.
      - rewrite Hr by exact E0. split; [exact Hi|]. split; [exact Hm|]. by rewrite Hm. }
    clearbody g'. cbn [fst snd]. split.
    - rewrite Gi, Gr. assert (r < length m)%nat as Hrm by lia. apply lookup_lt_is_Some in Hrm as [v Hv].
      rewrite (nth_lookup_Some _ _ _ (post (mt_temper v))).
      + replace (MTLEN + (q * MTLEN + r))%nat with (S q * MTLEN + r)%nat by lia. rewrite words_at by done.
        fold m. by rewrite (znth_lookup _ _ _ Hv).
      + change (map ?f ?l) with (f <$> l). by rewrite list_lookup_fmap, Hv.
    - rewrite Gi, Gm, Gr. destruct (decide (r = MTLEN - 1)%nat) as [E1|E1].
      + assert (S (q * MTLEN + r) = S q * MTLEN + 0)%nat as -> by lia.
        assert ((S q * MTLEN + 0) mod MTLEN = 0)%nat as Em by (rewrite Nat.add_comm, Nat.mod_add by done; apply Nat.mod_0_l; done).
        assert ((S q * MTLEN + 0) / MTLEN = S q)%nat as Ed by (rewrite Nat.div_add_l by done; rewrite Nat.div_0_l by done; lia).
        constructor; rewrite ?Em, ?Ed; cbn [mt_index mt_mt mt_res]; [exact eq_refl| |intros []; exact eq_refl]. by rewrite decide_True by done.
      + assert (S (q * MTLEN + r) = q * MTLEN + S r)%nat as -> by lia.
        assert ((q * MTLEN + S r) mod MTLEN = S r)%nat as Em by (rewrite Nat.add_comm, Nat.mod_add by done; apply Nat.mod_small; lia).
        assert ((q * MTLEN + S r) / MTLEN = q)%nat as Ed by (rewrite Nat.div_add_l by done; rewrite Nat.div_small by lia; lia).
        constructor; rewrite ?Em, ?Ed; cbn [mt_index mt_mt mt_res]; [exact eq_refl| |intros _; exact eq_refl]. by rewrite decide_False by done.
  Qed.
  Lemma draws_after seed n : after seed n (draws (mt_rand zero post) n (mt_init zero seed)).2 /\
    (draws (mt_rand zero post) n (mt_init zero seed)).1 = map (fun i => post (mt_temper (words seed (MTLEN + i)))) (seq 0 n).
  Proof.
    induction n as [|n [I1 I2]]; [split; [apply after_init|done]|].
    destruct (draws_snoc (mt_rand zero post) n (mt_init zero seed)) as [-> ->]. destruct (after_next _ _ _ I1) as [J1 J2].
    split; [exact J2|]. rewrite I2, J1, seq_S, map_app. done.
  Qed.
End Gen.
