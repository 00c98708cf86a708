(** * Facts about the caching coin tossers (C64). *)
From Verif Require Import Wp CtFacts ContainersFacts KernelFacts KernelProps CachedTossers.
From stdpp Require Import list.
Local Open Scope Z_scope.

(** ** Swapping two cells *)
Definition swap_at (i j k : nat) : nat := if decide (k = i) then j else if decide (k = j) then i else k.
Lemma swap_at_inj i j : Inj (=) (=) (swap_at i j).
Proof. intros a b. unfold swap_at. repeat case_decide; intros; subst; try done; congruence. Qed.
Lemma vswap_spec v i j : (i < length v)%nat -> (j < length v)%nat ->
  exists v', vswap v i j = Ret v' /\ length v' = length v /\ forall k, v' !! k = v !! swap_at i j k.
Proof.
  intros Hi Hj. unfold vswap, vget. destruct (lookup_lt_is_Some_2 v i Hi) as [a Ea]. destruct (lookup_lt_is_Some_2 v j Hj) as [b Eb].
  rewrite Ea, Eb. cbn [obind]. unfold vset. rewrite decide_True by done. cbn [obind]. rewrite decide_True by (by rewrite insert_length).
  eexists. split; [done|]. split; [by rewrite !insert_length|]. intros k. unfold swap_at.
  destruct (decide (k = j)) as [->|Hk].
  - rewrite list_lookup_insert by (by rewrite insert_length). case_decide; subst; congruence.
  - rewrite list_lookup_insert_ne by done. destruct (decide (k = i)) as [->|Hk']; [by rewrite list_lookup_insert|by rewrite list_lookup_insert_ne].
Qed.
Lemma vswap_perm (v : list Z) i j v' : length v' = length v -> (forall k, v' !! k = v !! swap_at i j k) -> v' ≡ₚ v.
Proof. intros El H. apply Permutation_inj. split; [done|]. exists (swap_at i j). split; [apply swap_at_inj|done]. Qed.
Lemma swap_at_sym i j k : swap_at j i k = swap_at i j k.
Proof. unfold swap_at. repeat case_decide; congruence. Qed.
Lemma count_ones_perm l l' : l ≡ₚ l' -> count_ones l = count_ones l'.
Proof. intros H. unfold count_ones. by rewrite H. Qed.
Lemma zo_perm n (l : list Z) l' : l' ≡ₚ l -> zo_list n l -> zo_list n l'.
Proof. intros H [El Hf]. split; [by rewrite H|]. by rewrite H. Qed.

Section Facts.
  Context (R : rnd) (g_ok : eG R -> Prop) (f_ok : eF R -> Prop) (HR : rnd_ok R g_ok f_ok).
  Notation G := (eG R).
  Fixpoint g_skip (g : G) (i : nat) : G := match i with O => g | S i => g_skip (g_next R g).2 i end.
  Lemma g_skip_ok i : forall g, g_ok g -> g_ok (g_skip g i).
  Proof using HR. induction i as [|i IH]; intros g Hg; [done|]. apply IH. by apply (g_next_ok _ _ _ HR). Qed.
  Lemma g_draw_ok i : forall g, g_ok g -> 0 <= g_draw R g i < 4294967296.
  Proof using HR. induction i as [|i IH]; intros g Hg; [by apply (g_next_ok _ _ _ HR)|]. apply IH. by apply (g_next_ok _ _ _ HR). Qed.
  Lemma rmod_spec r n : (0 < n)%nat -> rmod r n = Ret (Z.to_nat (r mod Z.of_nat n)) /\ (Z.to_nat (r mod Z.of_nat n) < n)%nat.
  Proof. intros Hn. unfold rmod. rewrite decide_False by lia. split; [done|]. pose proof (Z.mod_pos_bound r (Z.of_nat n)). lia. Qed.

  (** the positions of the swap made by the two draws after [g] *)
  Notation pos g i n := (Z.to_nat (g_draw R g i mod Z.of_nat n)).
  Lemma mutate_spec bt g : (0 < length (bt_cache bt))%nat ->
    exists c, bt_mutate R bt g = Ret (ByteTosser (bt_base bt) c, g_skip g 2) /\ length c = length (bt_cache bt) /\
      forall k, c !! k = bt_cache bt !! swap_at (pos g 0 (length (bt_cache bt))) (pos g 1 (length (bt_cache bt))) k.
  Proof using .
    intros Hn. unfold bt_mutate. cbn [g_skip g_draw]. destruct (g_next R g) as [r1 g1]. cbn [fst snd]. destruct (g_next R g1) as [r2 g2]. cbn [fst snd].
    destruct (rmod_spec r1 _ Hn) as [-> B1]. destruct (rmod_spec r2 _ Hn) as [-> B2]. cbn [obind]. destruct (ltr R).
    - destruct (vswap_spec (bt_cache bt) _ _ B1 B2) as (c & -> & El & Hc). cbn [obind]. eauto.
    - destruct (vswap_spec (bt_cache bt) _ _ B2 B1) as (c & -> & El & Hc). cbn [obind]. exists c. split; [done|]. split; [done|].
      intros k. rewrite Hc. by rewrite swap_at_sym.
  Qed.
  Lemma size_sub_le a b : (b <= a)%nat -> size_sub a b = (a - b)%nat.
  Proof. intros H. unfold size_sub. by rewrite decide_True. Qed.
  Lemma tosses_spec bt g extra : length (bt_cache bt) = (bt_base bt + extra)%nat -> (0 < extra)%nat ->
    exists c off, bt_tosses R bt g = Ret (off, ByteTosser (bt_base bt) c, g_skip g 3) /\ c ≡ₚ bt_cache bt /\
      off = (64 * (pos g 2 extra / 64))%nat /\ (off < extra)%nat.
  Proof using .
    intros El He. unfold bt_tosses. destruct (mutate_spec bt g) as (c & -> & Ec & Hc); [lia|]. cbn [obind bt_base bt_cache].
    assert (g_next R (g_skip g 2) = (g_draw R g 2, g_skip g 3)) as Q by (cbn [g_skip g_draw]; apply surjective_pairing).
    rewrite Q. rewrite size_sub_le by lia. replace (length (bt_cache bt) - bt_base bt)%nat with extra by lia.
    destruct (rmod_spec (g_draw R g 2) _ He) as [-> B]. cbn [obind].
    set (o := Z.to_nat (g_draw R g 2 mod Z.of_nat extra)) in *.
    assert (o - o mod 64 = 64 * (o / 64))%nat as Eo by (pose proof (Nat.div_mod o 64 ltac:(lia)); lia).
    rewrite Eo. assert (64 * (o / 64) <= o)%nat as Lo by lia. generalize dependent (64 * (o / 64))%nat. intros off Eo Lo.
    unfold vget. destruct (lookup_lt_is_Some_2 c off ltac:(lia)) as [y ->]. cbn [obind].
    exists c, off. split_and!; [done|by eapply vswap_perm|done|lia].
  Qed.
  Lemma tosses_none bt g : (0 < length (bt_cache bt))%nat -> length (bt_cache bt) = bt_base bt -> bt_tosses R bt g = UB DivByZero.
  Proof using .
    intros Hn El. unfold bt_tosses. destruct (mutate_spec bt g Hn) as (c & -> & _). cbn [obind bt_base].
    destruct (g_next R _). rewrite size_sub_le by lia. by replace (length (bt_cache bt) - bt_base bt)%nat with 0%nat by lia.
  Qed.

  (** ** populate *)
  Lemma fill_facts n size g : g_ok g -> 0 <= n -> (n <= Z.of_nat size) ->
    (forall c g', ct_fill R (tfuel R) n 0 (replicate size 0) g = Ret (c, g') -> g_ok g' /\ zo_list size c /\ Z.of_nat (count_ones c) = n) /\
    (covers R size g -> exists c g', ct_fill R (tfuel R) n 0 (replicate size 0) g = Ret (c, g')).
  Proof using HR.
    intros Hg Hn Hs.
    pose proof (fun V => CtFacts.fill_spec R g_ok f_ok HR n False V (tfuel R) 0 (replicate size 0) g Hg ltac:(apply Forall_replicate; by left)
      ltac:(by rewrite count_ones_replicate) Hn) as F. rewrite replicate_length in F. split.
    - intros c g' E. specialize (F True). rewrite E in F. apply F; [lia|done].
    - intros Hc. pose proof (fill_terminates R g_ok f_ok HR n size g (conj Hn Hs) Hg Hc) as Ht. specialize (F False ltac:(lia) Ht).
      destruct (ct_fill R (tfuel R) n 0 (replicate size 0) g) as [[c g']| | |]; [eauto|done|done|done].
  Qed.
  Lemma fill_forever n size g : g_ok g -> (0 < size)%nat -> Z.of_nat size < n -> ct_fill R (tfuel R) n 0 (replicate size 0) g = OutOfFuel.
  Proof using HR.
    intros Hg Hs Hn.
    pose proof (CtFacts.fill_spec R g_ok f_ok HR n False True (tfuel R) 0 (replicate size 0) g Hg ltac:(apply Forall_replicate; by left)
      ltac:(by rewrite count_ones_replicate) ltac:(lia)) as F. rewrite replicate_length in F. specialize (F ltac:(lia) ltac:(done)).
    destruct (ct_fill R (tfuel R) n 0 (replicate size 0) g) as [[c g']| | |]; [|done|done|done]. destruct F as (_ & [El _] & Ec).
    pose proof (count_ones_le c). lia.
  Qed.

  (** ** The bit tosser does to its bits what the byte tosser does to its bytes *)
  Definition kbits (v : bit_vector) : list Z := map (fun i => if bv_bit 64 v i then 1 else 0) (seq 0 (bv_len v)).
  Lemma kbits_length v : length (kbits v) = bv_len v.
  Proof. unfold kbits. by rewrite map_length, seq_length. Qed.
  Lemma kbits_at v k : (k < bv_len v)%nat -> kbits v !! k = Some (if bv_bit 64 v k then 1 else 0).
  Proof. intros Hk. unfold kbits. rewrite list_lookup_fmap, lookup_seq_lt by done. done. Qed.
  Lemma kbits_zo v : zo_list (bv_len v) (kbits v).
  Proof. split; [apply kbits_length|]. apply Forall_forall. intros y. unfold kbits. rewrite elem_of_list_fmap. intros (i & -> & _). destruct (bv_bit 64 v i); auto. Qed.
  Lemma kbits_ext v c : length c = bv_len v -> (forall k, (k < bv_len v)%nat -> c !! k = Some (if bv_bit 64 v k then 1 else 0)) -> kbits v = c.
  Proof.
    intros El H. apply list_eq. intros k. destruct (Nat.lt_ge_cases k (bv_len v)) as [Hk|Hk]; [by rewrite kbits_at, H|].
    rewrite !lookup_ge_None_2; [done|lia|rewrite kbits_length; lia].
  Qed.
  (** [v'] is [v] with other bits *)
  Definition same_room (v v' : bit_vector) : Prop := bv_wf 64 v' /\ bv_len v' = bv_len v /\ length (bv_blocks v') = length (bv_blocks v).
  Lemma kt_fill_sim n fuel : forall it v g, bv_wf 64 v ->
    orel (fun '(v', g1) '(c, g2) => kbits v' = c /\ g1 = g2 /\ same_room v v') (kt_fill R fuel n it v g) (ct_fill R fuel n it (kbits v) g).
  Proof using .
    induction fuel as [|fuel IH]; intros it v g Hw; cbn [kt_fill ct_fill]; (destruct (it <? n); [try done|cbn [orel]; repeat split; try done; apply Hw]).
    destruct (g_next R g) as [r g1]. rewrite kbits_length. unfold rmod. case_decide as Hl.
      + rewrite (proj2 (Z.eqb_eq _ _)) by lia. done.
      + rewrite (proj2 (Z.eqb_neq _ _)) by lia. cbn [obind]. set (ix := Z.to_nat (r mod Z.of_nat (bv_len v))).
        assert (ix < bv_len v)%nat as Hi by (pose proof (Z.mod_pos_bound r (Z.of_nat (bv_len v))); lia).
        rewrite bv_get_spec by (done || lia). cbn [obind].
        destruct (bv_set_spec 64 v ix ltac:(lia) Hw Hi) as (v1 & -> & Hw1 & El1 & Eb1 & Hb). cbn [obind].
        unfold vget at 1. rewrite kbits_at by done. cbn [obind]. unfold vset. rewrite decide_True by (by rewrite kbits_length). cbn [obind].
        assert (<[ix:=1]> (kbits v) = kbits v1) as ->.
        { symmetry. apply kbits_ext; [by rewrite insert_length, kbits_length|]. intros k Hk. rewrite Hb. destruct (Nat.eqb_spec k ix) as [->|Hne].
          - rewrite list_lookup_insert; [done|by rewrite kbits_length].
          - rewrite list_lookup_insert_ne by done. apply kbits_at. lia. }
        replace (if (if bv_bit 64 v ix then 1 else 0) =? 0 then 1 else 0) with (if bv_bit 64 v ix then 0 else 1) by (by destruct (bv_bit 64 v ix)).
        eapply orel_mono; [apply IH; done|]. intros [v' ga] [c gb] (E1 & E2 & (H1 & H2 & H3)). repeat split; try done; try congruence; apply H1.
  Qed.
  Lemma kt_mutate_spec kt g : bv_wf 64 (kt_cache kt) -> (0 < bv_len (kt_cache kt))%nat ->
    exists v, kt_mutate R kt g = Ret (BitTosser (kt_base kt) v, g_skip g 2) /\ same_room (kt_cache kt) v /\
      forall k, kbits v !! k = kbits (kt_cache kt) !! swap_at (pos g 0 (bv_len (kt_cache kt))) (pos g 1 (bv_len (kt_cache kt))) k.
  Proof using .
    intros Hw Hn. destruct kt as [base v]. cbn [kt_cache kt_base] in *. unfold kt_mutate. cbn [kt_cache kt_base g_skip g_draw].
    destruct (g_next R g) as [r1 g1]. cbn [fst snd]. destruct (rmod_spec r1 _ Hn) as [-> B1]. cbn [obind].
    destruct (g_next R g1) as [r2 g2]. cbn [fst snd]. destruct (rmod_spec r2 _ Hn) as [-> B2]. cbn [obind].
    generalize dependent (Z.to_nat (r1 mod Z.of_nat (bv_len v))). intros i1 B1. generalize dependent (Z.to_nat (r2 mod Z.of_nat (bv_len v))). intros i2 B2.
    rewrite !bv_get_spec by (done || lia). cbn [obind].
    assert (forall v', same_room v v' -> (forall k, (k < bv_len v)%nat -> bv_bit 64 v' k = bv_bit 64 v (swap_at i1 i2 k)) -> forall k, kbits v' !! k = kbits v !! swap_at i1 i2 k) as Q.
    { intros v' (_ & El & _) H k. destruct (Nat.lt_ge_cases k (bv_len v)) as [Hk|Hk].
      - rewrite !kbits_at; [by rewrite H|unfold swap_at; repeat case_decide; lia|lia].
      - rewrite !lookup_ge_None_2; [done| |]; rewrite kbits_length; [unfold swap_at; repeat case_decide; lia|lia]. }
    destruct (xorb (bv_bit 64 v i1) (bv_bit 64 v i2)) eqn:X.
    - destruct (bv_flip_spec 64 v i1 ltac:(lia) Hw B1) as (v1 & -> & Hw1 & El1 & Eb1 & H1). cbn [obind].
      destruct (bv_flip_spec 64 v1 i2 ltac:(lia) Hw1 ltac:(lia)) as (v2 & -> & Hw2 & El2 & Eb2 & H2). cbn [obind].
      exists v2. split; [done|]. assert (same_room v v2) as Hr by (repeat split; [apply Hw2|apply Hw2|lia|lia]). split; [done|]. apply Q; [done|].
      intros k Hk. rewrite H2, !H1. assert (i1 <> i2) as Hne by (intros ->; by rewrite xorb_nilpotent in X).
      assert (bv_bit 64 v i2 = negb (bv_bit 64 v i1)) as X' by (destruct (bv_bit 64 v i1), (bv_bit 64 v i2); done).
      unfold swap_at. destruct (Nat.eqb_spec k i2) as [->|N2].
      + rewrite (proj2 (Nat.eqb_neq _ _)) by lia. rewrite decide_False, decide_True by lia. by rewrite X', negb_involutive.
      + destruct (Nat.eqb_spec k i1) as [->|N1]; [by rewrite decide_True|by rewrite !decide_False].
    - exists v. split; [done|]. assert (same_room v v) as Hr by (repeat split; apply Hw). split; [done|]. apply Q; [done|].
      intros k Hk. assert (bv_bit 64 v i1 = bv_bit 64 v i2) as X' by (destruct (bv_bit 64 v i1), (bv_bit 64 v i2); done).
      unfold swap_at. case_decide; subst; [done|]. case_decide; subst; done.
  Qed.
  Lemma kt_tosses_spec kt g extra : bv_wf 64 (kt_cache kt) -> (0 < bv_len (kt_cache kt))%nat ->
    length (bv_blocks (kt_cache kt)) = bv_content_blocks 64 (kt_cache kt) -> bv_content_blocks 64 (kt_cache kt) = (kt_base kt / 64 + extra)%nat -> (0 < extra)%nat ->
    exists v blk, kt_tosses R kt g = Ret (blk, BitTosser (kt_base kt) v, g_skip g 3) /\ same_room (kt_cache kt) v /\ kbits v ≡ₚ kbits (kt_cache kt) /\
      blk = pos g 2 extra /\ (blk < extra)%nat.
  Proof using .
    intros Hw Hn Eb El He. unfold kt_tosses. destruct (kt_mutate_spec kt g Hw Hn) as (v & -> & Hr & Hv). cbn [obind kt_base kt_cache].
    assert (g_next R (g_skip g 2) = (g_draw R g 2, g_skip g 3)) as Q by (cbn [g_skip g_draw]; apply surjective_pairing).
    rewrite Q. rewrite size_sub_le by lia. replace (bv_content_blocks 64 (kt_cache kt) - kt_base kt / 64)%nat with extra by lia.
    destruct (rmod_spec (g_draw R g 2) _ He) as [-> B]. cbn [obind]. destruct Hr as (R1 & R2 & R3).
    unfold vget. destruct (lookup_lt_is_Some_2 (bv_blocks v) (pos g 2 extra) ltac:(lia)) as [y ->]. cbn [obind].
    exists v, (pos g 2 extra). split_and!; try done. eapply vswap_perm; [by rewrite !kbits_length|done].
  Qed.
  Lemma kt_tosses_none kt g : bv_wf 64 (kt_cache kt) -> (0 < bv_len (kt_cache kt))%nat ->
    bv_content_blocks 64 (kt_cache kt) = (kt_base kt / 64)%nat -> kt_tosses R kt g = UB DivByZero.
  Proof using .
    intros Hw Hn El. unfold kt_tosses. destruct (kt_mutate_spec kt g Hw Hn) as (v & -> & _). cbn [obind kt_base].
    destruct (g_next R _). rewrite size_sub_le by lia. by replace (bv_content_blocks 64 (kt_cache kt) - kt_base kt / 64)%nat with 0%nat by lia.
  Qed.
End Facts.
