(** * Copies of generators *)
From Verif Require Export GenMemory AlignedFacts.
From stdpp Require Import list.
Local Open Scope Z_scope.

(** the generator at [o1] in memory [m1] is the one at [o2] in memory [m2]: index, results and state words *)
Definition same_generator (m1 : memory) (o1 : Z) (m2 : memory) (o2 : Z) : Prop :=
  (forall i, 0 <= i < 4 -> m1 (o1 + i) = m2 (o2 + i)) /\
  (forall i, 0 <= i < g_words -> m1 (g_RESp o1 + i) = m2 (g_RESp o2 + i)) /\
  (forall i, 0 <= i < g_words -> m1 (g_MTp o1 + i) = m2 (g_MTp o2 + i)).
Definition in_memory (o : Z) : Prop := 0 <= o /\ o + g_sizeof <= size_max + 1.
Definition apart (o1 o2 : Z) : Prop := o1 + g_sizeof <= o2 \/ o2 + g_sizeof <= o1.

Lemma g_bytes_eq : g_bytes = 20032. Proof. reflexivity. Qed.
Lemma g_words_eq : g_words = 19968. Proof. reflexivity. Qed.
Lemma g_sizeof_eq : g_sizeof = 40128. Proof. reflexivity. Qed.

Lemma copy_in m src dst n x : 0 <= n -> src + n <= dst \/ dst + n <= src -> dst <= x < dst + n -> copy_bytes m src dst (Z.to_nat n) x = m (x - dst + src).
Proof.
  intros Hn Hs Hx. pose proof (copy_content m src dst (Z.to_nat n) (Z.to_nat (x - dst))) as H. rewrite !Z2Nat.id in H by lia.
  replace (dst + (x - dst)) with x in H by lia. rewrite H; [f_equal; lia|done|lia].
Qed.
Lemma copy_out m src dst n x : 0 <= n -> x < dst \/ dst + n <= x -> copy_bytes m src dst (Z.to_nat n) x = m x.
Proof. intros Hn Hx. apply copy_frame. rewrite Z2Nat.id by lia. exact Hx. Qed.

(** where the words are *)
Lemma g_places o : in_memory o ->
  g_RESp o mod 64 = 0 /\ o + 64 <= g_RESp o <= o + 127 /\ g_MTp o mod 64 = 0 /\ o + 20096 <= g_MTp o <= o + 20159.
Proof.
  intros [H1 H2]. rewrite g_sizeof_eq in H2. unfold size_max in H2. unfold g_RESp, g_MTp, g_aRES, g_aMT, prng_ptr. rewrite g_bytes_eq.
  pose proof (align_up_bounds (o + 64) 6 ltac:(lia) ltac:(lia) ltac:(unfold size_max; lia)) as [Ha Hb].
  pose proof (align_up_bounds (o + 64 + 20032) 6 ltac:(lia) ltac:(lia) ltac:(unfold size_max; lia)) as [Hc Hd].
  change (2 ^ 6) with 64 in *. lia.
Qed.
Lemma g_same_offset o1 o2 : in_memory o1 -> in_memory o2 -> o1 mod 64 = o2 mod 64 -> g_RESp o1 - o1 = g_RESp o2 - o2 /\ g_MTp o1 - o1 = g_MTp o2 - o2.
Proof.
  intros H1 H2 Hm. pose proof (g_places o1 H1) as (A1 & B1 & C1 & D1). pose proof (g_places o2 H2) as (A2 & B2 & C2 & D2). lia.
Qed.

Lemma assign_spec m this other : in_memory this -> in_memory other -> apart this other ->
  same_generator (g_assign m this other) this m other /\ (forall x, x < this \/ this + g_sizeof <= x -> g_assign m this other x = m x).
Proof.
  intros H1 H2 Ha. pose proof (g_places this H1) as (A1 & B1 & C1 & D1). pose proof (g_places other H2) as (A2 & B2 & C2 & D2).
  destruct H1 as [H1 H1'], H2 as [H2 H2']. unfold apart in Ha. rewrite g_sizeof_eq in *. unfold size_max in *.
  unfold g_assign, same_generator. destruct (Z.eqb_spec this other) as [->|_]; [lia|]. rewrite g_words_eq. change 4%nat with (Z.to_nat 4).
  set (r1 := g_RESp this) in *. set (r2 := g_RESp other) in *. set (t1 := g_MTp this) in *. set (t2 := g_MTp other) in *. clearbody r1 r2 t1 t2.
  split; [split; [|split]|].
  - intros i Hi. rewrite copy_out, copy_out, copy_in by lia. f_equal. lia.
  - intros i Hi. rewrite copy_out, copy_in, copy_out by lia. f_equal. lia.
  - intros i Hi. rewrite copy_in, copy_out, copy_out by lia. f_equal. lia.
  - intros x Hx. rewrite !copy_out by lia. done.
Qed.
Lemma copy_construct_spec m this other : in_memory this -> in_memory other -> apart this other -> this mod 64 = other mod 64 ->
  same_generator (g_copy_construct m this other) this m other /\ (forall x, x < this \/ this + g_sizeof <= x -> g_copy_construct m this other x = m x).
Proof.
  intros H1 H2 Ha Hm. pose proof (g_same_offset this other H1 H2 Hm) as [E1 E2].
  pose proof (g_places this H1) as (A1 & B1 & C1 & D1). pose proof (g_places other H2) as (A2 & B2 & C2 & D2).
  destruct H1 as [H1 H1'], H2 as [H2 H2']. unfold apart in Ha. rewrite g_sizeof_eq in *. unfold size_max in *.
  unfold g_copy_construct, same_generator, g_aRES, g_aMT. rewrite g_words_eq, g_bytes_eq. change 4%nat with (Z.to_nat 4).
  set (r1 := g_RESp this) in *. set (r2 := g_RESp other) in *. set (t1 := g_MTp this) in *. set (t2 := g_MTp other) in *. clearbody r1 r2 t1 t2.
  split; [split; [|split]|].
  - intros i Hi. rewrite copy_out, copy_out, copy_in by lia. f_equal. lia.
  - intros i Hi. rewrite copy_out, copy_in, copy_out by lia. f_equal. lia.
  - intros i Hi. rewrite copy_in, copy_out, copy_out by lia. f_equal. lia.
  - intros x Hx. rewrite !copy_out by lia. done.
Qed.
(** with different offsets the copy constructor puts the words where the copy does not look for them *)
Lemma copy_construct_wrong this other : in_memory this -> in_memory other -> apart this other -> this mod 64 <> other mod 64 ->
  exists m, ~ same_generator (g_copy_construct m this other) this m other.
Proof.
  intros H1 H2 Ha Hm.
  pose proof (g_places this H1) as (A1 & B1 & C1 & D1). pose proof (g_places other H2) as (A2 & B2 & C2 & D2).
  assert (Hd : g_RESp this - this <> g_RESp other - other) by lia.
  exists (fun x => x). intros (_ & H & _). specialize (H 0 ltac:(rewrite g_words_eq; lia)). revert H.
  destruct H1 as [H1 H1'], H2 as [H2 H2']. unfold apart in Ha. rewrite g_sizeof_eq in *. unfold size_max in *.
  unfold g_copy_construct, g_aRES, g_aMT. rewrite g_bytes_eq. change 4%nat with (Z.to_nat 4).
  set (r1 := g_RESp this) in *. set (r2 := g_RESp other) in *. clearbody r1 r2.
  rewrite copy_out, copy_in, copy_out by lia. lia.
Qed.
