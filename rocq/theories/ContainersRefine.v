(** * Containers refine plain sequences and tables: operations, abstract semantics, lemmas. *)
From Verif Require Export Containers ContainersFacts.

(** ** Operations on a bit vector and on its abstraction, a list of booleans *)
Inductive bv_op :=
| BvGet (pos : nat) | BvSet (pos : nat) | BvClear (pos : nat) | BvFlip (pos : nat)
| BvAssign (pos : nat) (b : bool) | BvXor (pos : nat) (b : bool).
Definition bv_op_pos (o : bv_op) : nat :=
  match o with BvGet p | BvSet p | BvClear p | BvFlip p | BvAssign p _ | BvXor p _ => p end.
(** the modelled code; a read also yields its result *)
Definition bv_step (W : nat) (v : bit_vector) (o : bv_op) : outcome (list bool * bit_vector) :=
  match o with
  | BvGet p => let* b := bv_get W v p in Ret ([b], v)
  | BvSet p => let* v := bv_set W v p in Ret ([], v)
  | BvClear p => let* v := bv_clear W v p in Ret ([], v)
  | BvFlip p => let* v := bv_flip W v p in Ret ([], v)
  | BvAssign p b => let* v := bv_assign W v p b in Ret ([], v)
  | BvXor p b => let* v := bv_XOR W v p b in Ret ([], v)
  end.
Definition bv_run (W : nat) (v : bit_vector) (os : list bv_op) : outcome (list bool * bit_vector) :=
  ofold os ([], v) (fun o '(rs, v) => let* '(r, v) := bv_step W v o in Ret (rs ++ r, v)).
(** the same on a sequence of booleans *)
Definition seq_step (l : list bool) (o : bv_op) : list bool * list bool :=
  match o with
  | BvGet p => ([default false (l !! p)], l)
  | BvSet p => ([], <[p := true]> l)
  | BvClear p => ([], <[p := false]> l)
  | BvFlip p => ([], alter negb p l)
  | BvAssign p b => ([], <[p := b]> l)
  | BvXor p b => ([], alter (xorb b) p l)
  end.
Fixpoint seq_run (l : list bool) (os : list bv_op) : list bool * list bool :=
  match os with
  | [] => ([], l)
  | o :: os => let '(r, l) := seq_step l o in let '(rs, l) := seq_run l os in (r ++ rs, l)
  end.
(** the bits stored beyond the length (up to the end of the storage) are zero, and the storage is what is needed *)
Definition bv_clean (W : nat) (v : bit_vector) : Prop :=
  length (bv_blocks v) = (bv_len v + W - 1) / W /\
  forall k b, bv_blocks v !! k = Some b -> (b < 2 ^ N.of_nat W)%N /\
    forall i, i < W -> bv_len v <= k * W + i -> N.testbit b (N.of_nat i) = false.
(** bit [pos] of the stored blocks, as a position in the sequence *)
Definition bv_abs (W : nat) (v : bit_vector) (l : list bool) : Prop :=
  length l = bv_len v /\
  forall pos, pos < bv_len v -> exists b, bv_blocks v !! (pos / W) = Some b /\
    l !! pos = Some (N.testbit b (N.of_nat (pos mod W))).

Section Bv.
  Context (W : nat) (HW : 0 < W).
  Definition bvr (v : bit_vector) (l : list bool) : Prop :=
    bv_wf W v /\ bv_len v = length l /\ length (bv_blocks v) = blocks_for W (bv_len v) /\
    forall q, bv_bit W v q = default false (l !! q).

  Lemma bvr_step v l o : bvr v l -> bv_op_pos o < length l ->
    exists r v', bv_step W v o = Ret (r, v') /\ bvr v' (seq_step l o).2 /\ r = (seq_step l o).1.
  Proof.
    intros Hr Hp. pose proof Hr as (Hwf & Hl & Hb & Hq).
    assert (Hlook : forall p (f : bool -> bool), p < length l -> forall q,
      default false (alter f p l !! q) = if Nat.eqb q p then f (default false (l !! p)) else default false (l !! q)).
    { intros p f Hp' q. destruct (Nat.eqb_spec q p) as [->|Hne].
      - rewrite list_lookup_alter. destruct (l !! p) eqn:E; [done|]. apply lookup_ge_None in E. lia.
      - by rewrite list_lookup_alter_ne. }
    assert (Hins : forall p b, p < length l -> forall q,
      default false (<[p := b]> l !! q) = if Nat.eqb q p then b else default false (l !! q)).
    { intros p b Hp' q. destruct (Nat.eqb_spec q p) as [->|Hne].
      - by rewrite list_lookup_insert.
      - by rewrite list_lookup_insert_ne. }
    destruct o as [p|p|p|p|p b|p b]; cbn [bv_op_pos] in Hp; cbn [bv_step seq_step fst snd].
    - rewrite bv_get_spec by (auto; lia). cbn. exists [bv_bit W v p], v. split; [done|]. split; [exact Hr|]. by rewrite Hq.
    - destruct (bv_set_spec W v p HW Hwf ltac:(lia)) as (v' & -> & Hwf' & El & Eb & Hq'). cbn.
      eexists _, v'. split; [done|]. split; [|done]. split; [done|]. rewrite insert_length, El. split; [done|].
      split; [congruence|]. intros q. by rewrite Hq', Hins, Hq.
    - destruct (bv_clear_spec W v p HW Hwf ltac:(lia)) as (v' & -> & Hwf' & El & Eb & Hq'). cbn.
      eexists _, v'. split; [done|]. split; [|done]. split; [done|]. rewrite insert_length, El. split; [done|].
      split; [congruence|]. intros q. by rewrite Hq', Hins, Hq.
    - destruct (bv_flip_spec W v p HW Hwf ltac:(lia)) as (v' & -> & Hwf' & El & Eb & Hq'). cbn.
      eexists _, v'. split; [done|]. split; [|done]. split; [done|]. rewrite alter_length, El. split; [done|].
      split; [congruence|]. intros q. by rewrite Hq', Hlook, !Hq.
    - destruct (bv_assign_spec W v p b HW Hwf ltac:(lia)) as (v' & -> & Hwf' & El & Eb & Hq'). cbn.
      eexists _, v'. split; [done|]. split; [|done]. split; [done|]. rewrite insert_length, El. split; [done|].
      split; [congruence|]. intros q. by rewrite Hq', Hins, Hq.
    - destruct (bv_XOR_spec W v p b HW Hwf ltac:(lia)) as (v' & -> & Hwf' & El & Eb & Hq'). cbn.
      eexists _, v'. split; [done|]. split; [|done]. split; [done|]. rewrite alter_length, El. split; [done|].
      split; [congruence|]. intros q. rewrite Hq', Hlook, !Hq by done. by destruct (Nat.eqb q p), b, (default false (l !! p)).
  Qed.
  Lemma seq_step_length l o : length (seq_step l o).2 = length l.
  Proof. destruct o; simpl; rewrite ?insert_length, ?alter_length; done. Qed.
  Lemma bvr_run os : forall v l rs, bvr v l -> Forall (fun o => bv_op_pos o < length l) os ->
    exists v', ofold os (rs, v) (fun o '(rs, v) => let* '(r, v) := bv_step W v o in Ret (rs ++ r, v))
               = Ret (rs ++ (seq_run l os).1, v') /\ bvr v' (seq_run l os).2.
  Proof.
    induction os as [|o os IH]; intros v l rs Hr Hf; simpl.
    - exists v. by rewrite app_nil_r.
    - inversion Hf as [|? ? Ho Hf']; subst.
      destruct (bvr_step v l o Hr Ho) as (r & v1 & -> & Hr1 & ->). simpl.
      pose proof (seq_step_length l o) as Hl. destruct (seq_step l o) as [r l1]. simpl in *.
      destruct (IH v1 l1 (rs ++ r) Hr1) as (v' & E & Hr'); [by rewrite Hl|].
      exists v'. rewrite E. destruct (seq_run l1 os) as [rs' l2]. simpl in *. by rewrite app_assoc.
  Qed.
  Lemma bvr_abs v l : bvr v l -> bv_abs W v l /\ bv_clean W v.
  Proof.
    intros ((Hlen & Hok) & El & Eb & Hq). split.
    - split; [done|]. intros pos Hp.
      assert (pos / W < length (bv_blocks v)) as Hlt by (rewrite Eb; by apply div_lt_blocks).
      apply lookup_lt_is_Some_2 in Hlt as [b Ebk]. exists b. split; [done|].
      specialize (Hq pos). unfold bv_bit in Hq. rewrite Ebk in Hq. rewrite Hq.
      rewrite El in Hp. apply lookup_lt_is_Some_2 in Hp as [x ->]. done.
    - split; [exact Eb|]. intros k b Ek. split.
      + apply block_ok_lt. by eapply Forall_lookup_1 in Hok.
      + intros i Hi Hge. specialize (Hq (k * W + i)). unfold bv_bit in Hq.
        rewrite Nat.div_add_l, Nat.div_small, Nat.add_0_r, Ek in Hq by lia.
        rewrite Nat.add_comm, Nat.mod_add, Nat.mod_small in Hq by lia. rewrite Hq.
        rewrite lookup_ge_None_2 by lia. done.
  Qed.
  (** the same for vectors whose storage may hold more than the length: only the bits inside matter *)
  Definition bvs (v : bit_vector) (l : list bool) : Prop :=
    bv_wf W v /\ bv_len v = length l /\ forall q, q < length l -> l !! q = Some (bv_bit W v q).
  Lemma bvs_step v l o : bvs v l -> bv_op_pos o < length l ->
    exists r v', bv_step W v o = Ret (r, v') /\ bvs v' (seq_step l o).2 /\ r = (seq_step l o).1.
  Proof.
    intros Hr Hp. pose proof Hr as (Hwf & Hl & Hq).
    assert (Hlook : forall p (f : bool -> bool), p < length l -> forall q, q < length l ->
      alter f p l !! q = Some (if Nat.eqb q p then f (bv_bit W v p) else bv_bit W v q)).
    { intros p f Hp' q Hq'. destruct (Nat.eqb_spec q p) as [->|Hne].
      - by rewrite list_lookup_alter, Hq.
      - by rewrite list_lookup_alter_ne, Hq. }
    assert (Hins : forall p b, p < length l -> forall q, q < length l ->
      <[p := b]> l !! q = Some (if Nat.eqb q p then b else bv_bit W v q)).
    { intros p b Hp' q Hq'. destruct (Nat.eqb_spec q p) as [->|Hne].
      - by rewrite list_lookup_insert.
      - by rewrite list_lookup_insert_ne, Hq. }
    destruct o as [p|p|p|p|p b|p b]; cbn [bv_op_pos] in Hp; cbn [bv_step seq_step fst snd].
    - rewrite bv_get_spec by (auto; lia). cbn. exists [bv_bit W v p], v. split; [done|]. split; [exact Hr|]. by rewrite Hq.
    - destruct (bv_set_spec W v p HW Hwf ltac:(lia)) as (v' & -> & Hwf' & El & Eb & Hq'). cbn.
      eexists _, v'. split; [done|]. split; [|done]. split; [done|]. rewrite insert_length, El. split; [done|].
      intros q Hlt. by rewrite Hq', Hins.
    - destruct (bv_clear_spec W v p HW Hwf ltac:(lia)) as (v' & -> & Hwf' & El & Eb & Hq'). cbn.
      eexists _, v'. split; [done|]. split; [|done]. split; [done|]. rewrite insert_length, El. split; [done|].
      intros q Hlt. by rewrite Hq', Hins.
    - destruct (bv_flip_spec W v p HW Hwf ltac:(lia)) as (v' & -> & Hwf' & El & Eb & Hq'). cbn.
      eexists _, v'. split; [done|]. split; [|done]. split; [done|]. rewrite alter_length, El. split; [done|].
      intros q Hlt. by rewrite Hq', Hlook.
    - destruct (bv_assign_spec W v p b HW Hwf ltac:(lia)) as (v' & -> & Hwf' & El & Eb & Hq'). cbn.
      eexists _, v'. split; [done|]. split; [|done]. split; [done|]. rewrite insert_length, El. split; [done|].
      intros q Hlt. by rewrite Hq', Hins.
    - destruct (bv_XOR_spec W v p b HW Hwf ltac:(lia)) as (v' & -> & Hwf' & El & Eb & Hq'). cbn.
      eexists _, v'. split; [done|]. split; [|done]. split; [done|]. rewrite alter_length, El. split; [done|].
      intros q Hlt. rewrite Hq', Hlook by done. by destruct (Nat.eqb q p), b, (bv_bit W v p).
  Qed.
  Lemma bvs_run os : forall v l rs, bvs v l -> Forall (fun o => bv_op_pos o < length l) os ->
    exists v', ofold os (rs, v) (fun o '(rs, v) => let* '(r, v) := bv_step W v o in Ret (rs ++ r, v))
               = Ret (rs ++ (seq_run l os).1, v') /\ bvs v' (seq_run l os).2.
  Proof.
    induction os as [|o os IH]; intros v l rs Hr Hf; simpl.
    - exists v. by rewrite app_nil_r.
    - inversion Hf as [|? ? Ho Hf']; subst.
      destruct (bvs_step v l o Hr Ho) as (r & v1 & -> & Hr1 & ->). simpl.
      pose proof (seq_step_length l o) as Hl. destruct (seq_step l o) as [r l1]. simpl in *.
      destruct (IH v1 l1 (rs ++ r) Hr1) as (v' & E & Hr'); [by rewrite Hl|].
      exists v'. rewrite E. destruct (seq_run l1 os) as [rs' l2]. simpl in *. by rewrite app_assoc.
  Qed.
  Lemma seq_run_length os l : length (seq_run l os).2 = length l.
  Proof.
    revert l. induction os as [|o os IH]; intros l; [done|]. cbn. pose proof (seq_step_length l o) as Hl. destruct (seq_step l o) as [r l1].
    specialize (IH l1). destruct (seq_run l1 os) as [rs l2]. cbn in *. congruence.
  Qed.
  Lemma bvs_runs v l os : bvs v l -> Forall (fun o => bv_op_pos o < length l) os ->
    exists v', bv_run W v os = Ret ((seq_run l os).1, v') /\ bv_abs W v' (seq_run l os).2 /\ bv_len v' = length l.
  Proof.
    intros Hr Hf. destruct (bvs_run os v l [] Hr Hf) as (v' & E & Hwf & El & Hq). exists v'. split; [exact E|]. rewrite El, seq_run_length.
    split; [|done]. split; [by rewrite El|]. intros pos Hp. rewrite El in Hp. specialize (Hq pos Hp). unfold bv_bit in Hq.
    assert (pos / W < length (bv_blocks v')) as Hlt by (apply bv_pos_in; auto; destruct Hwf; lia).
    apply lookup_lt_is_Some_2 in Hlt as [b Eb]. exists b. by rewrite Eb in *.
  Qed.
  (** the vector made from blocks: its bits are those of the blocks, as far as they go *)
  Definition storage_bits (n : nat) (bs : list N) : list bool :=
    map (fun i => N.testbit (nth (i / W) bs 0%N) (N.of_nat (i mod W))) (seq 0 n).
  Lemma bv_of_storage_refines len bs os : Forall (fun b => (b < 2 ^ N.of_nat W)%N) bs ->
    Forall (fun o => bv_op_pos o < min len (length bs * W)) os ->
    exists v, bv_run W (bv_of_storage W len bs) os = Ret ((seq_run (storage_bits (min len (length bs * W)) bs) os).1, v) /\
      bv_abs W v (seq_run (storage_bits (min len (length bs * W)) bs) os).2 /\ bv_len v = min len (length bs * W).
  Proof.
    intros Hb Hf. set (n := min len (length bs * W)) in *. set (l := storage_bits n bs).
    assert (length l = n) as Hl by (unfold l, storage_bits; by rewrite map_length, seq_length).
    destruct (bvs_runs (bv_of_storage W len bs) l os) as (v & E & Ha & El).
    - split; [split; [cbn; lia|apply Forall_forall; intros b Hin; apply block_ok_lt; by eapply Forall_forall in Hb; [|exact Hin]]|]. rewrite Hl. split; [done|].
      intros q Hq. unfold l, storage_bits. unfold bv_bit. cbn [bv_blocks bv_of_storage].
      change (map ?f ?x) with (f <$> x). rewrite list_lookup_fmap, lookup_seq_lt by done. cbn. f_equal.
      assert (q / W < length bs) as Hlt by (apply Nat.div_lt_upper_bound; lia).
      apply lookup_lt_is_Some_2 in Hlt as [b Eb]. rewrite Eb. by rewrite (nth_lookup_Some _ _ _ _ Eb).
    - by rewrite Hl.
    - exists v. rewrite E, El, Hl. done.
  Qed.
  Lemma bv_new_refines len os : Forall (fun o => bv_op_pos o < len) os ->
    exists v, bv_run W (bv_new W len) os = Ret ((seq_run (replicate len false) os).1, v) /\
      bv_abs W v (seq_run (replicate len false) os).2 /\ bv_clean W v /\ bv_len v = len.
  Proof.
    intros Hf. assert (bvr (bv_new W len) (replicate len false)) as Hr.
    { destruct (bv_of_storage_zero W len HW) as (Hwf & Hlen & Hbl & Hbits).
      assert (bv_of_storage W len (replicate (blocks_for W len) 0%N) = bv_new W len) as E.
      { unfold bv_of_storage, bv_new in *. cbn in Hlen. by rewrite Hlen. }
      rewrite E in *. split; [done|]. rewrite replicate_length. split; [done|]. split; [cbn; by rewrite replicate_length|]. intros q. rewrite Hbits.
      destruct (decide (q < len)); [by rewrite lookup_replicate_2|]. rewrite lookup_ge_None_2; [done|]. rewrite replicate_length. lia. }
    destruct (bvr_run os _ _ [] Hr) as (v & E & Hr'); [by rewrite replicate_length|]. exists v. split; [exact E|].
    destruct (bvr_abs _ _ Hr') as [H1 H2]. split; [done|]. split; [done|]. destruct Hr' as (_ & El & _). rewrite El, seq_run_length. by rewrite replicate_length.
  Qed.
  (** from_range followed by any in-range operations *)
  Lemma bv_refines xs os :
    Forall (fun o => bv_op_pos o < length xs) os ->
    exists v0 v, bv_from_range W xs = Ret v0 /\
      bv_run W v0 os = Ret ((seq_run (map (fun x => negb (x =? 0)%Z) xs) os).1, v) /\
      bv_abs W v (seq_run (map (fun x => negb (x =? 0)%Z) xs) os).2 /\ bv_clean W v /\ bv_len v = length xs.
  Proof.
    intros Hf. destruct (bv_from_range_spec W xs HW) as (v0 & E0 & Hwf & El & Eb & Hq).
    set (l := map (fun x => negb (x =? 0)%Z) xs).
    assert (bvr v0 l) as Hr.
    { split; [done|]. unfold l. rewrite map_length. split; [done|]. split; [congruence|].
      intros q. rewrite Hq, list_lookup_fmap. by destruct (xs !! q). }
    destruct (bvr_run os v0 l [] Hr) as (v & Er & Hr').
    { unfold l. by rewrite map_length. }
    exists v0, v. split; [done|]. split; [exact Er|].
    destruct (bvr_abs _ _ Hr') as [Ha Hc]. split; [done|]. split; [done|].
    destruct Hr' as (_ & -> & _).
    assert (forall os l, length (seq_run l os).2 = length l) as HL.
    { clear. induction os as [|o os IH]; intros l; [done|]. simpl. pose proof (seq_step_length l o).
      destruct (seq_step l o) as [r l1]. specialize (IH l1). destruct (seq_run l1 os). simpl in *. lia. }
    rewrite HL. unfold l. by rewrite map_length.
  Qed.
End Bv.

(** ** Matrices: a table indexed by row and column *)
Inductive m_op (T : Type) := MGet (r c : nat) | MPut (r c : nat) (f : T -> T).
Arguments MGet {T}. Arguments MPut {T}.
Definition m_in {T} (rows cols : nat) (o : m_op T) : Prop :=
  match o with MGet r c | MPut r c _ => r < rows /\ c < cols end.
(** abstract table *)
Definition tab_step {T} (t : nat -> nat -> T) (o : m_op T) : list T * (nat -> nat -> T) :=
  match o with
  | MGet r c => ([t r c], t)
  | MPut r c f => ([], fun r' c' => if Nat.eqb r' r && Nat.eqb c' c then f (t r c) else t r' c')
  end.
Fixpoint tab_run {T} (t : nat -> nat -> T) (os : list (m_op T)) : list T * (nat -> nat -> T) :=
  match os with
  | [] => ([], t)
  | o :: os => let '(r, t) := tab_step t o in let '(rs, t) := tab_run t os in (r ++ rs, t)
  end.

(** numeric matrix: reads, and writes of any value computed from the old one *)
Definition nm_step (m : nmatrix) (o : m_op Z) : outcome (list Z * nmatrix) :=
  match o with
  | MGet r c => let* v := nm_get m r c in Ret ([v], m)
  | MPut r c f => let* v := nm_get m r c in let* m := nm_set m r c (f v) in Ret ([], m)
  end.
Definition nm_run (m : nmatrix) (os : list (m_op Z)) : outcome (list Z * nmatrix) :=
  ofold os ([], m) (fun o '(rs, m) => let* '(r, m) := nm_step m o in Ret (rs ++ r, m)).
(** values are stored in a signed integer of [w] bits *)
Definition stored (w : Z) (o : m_op Z) : m_op Z :=
  match o with MGet r c => MGet r c | MPut r c f => MPut r c (fun v => wrap_s w (f v)) end.

Lemma nm_refine_run os : forall m rs (t : nat -> nat -> Z),
  nm_wf m -> (forall r c, r < nm_rows m -> c < nm_cols m -> nm_cell m r c = t r c) ->
  Forall (m_in (nm_rows m) (nm_cols m)) os ->
  exists m', ofold os (rs, m) (fun o '(rs, m) => let* '(r, m) := nm_step m o in Ret (rs ++ r, m))
    = Ret (rs ++ (tab_run t (map (stored (nm_w m)) os)).1, m') /\ nm_wf m' /\ nm_same_shape m m' /\
    forall r c, r < nm_rows m -> c < nm_cols m -> nm_cell m' r c = (tab_run t (map (stored (nm_w m)) os)).2 r c.
Proof.
  induction os as [|o os IH]; intros m rs t Hwf Ht Hf; cbn [ofold map tab_run].
  - exists m. rewrite app_nil_r. repeat split; auto; apply Hwf.
  - inversion Hf as [|? ? Ho Hf']; subst. destruct o as [r c|r c f]; destruct Ho as [Hr Hc]; cbn [nm_step stored tab_step].
    + rewrite nm_get_spec by done. cbn [obind]. rewrite Ht by done.
      destruct (IH m (rs ++ [t r c]) t Hwf Ht Hf') as (m' & E & H1 & H2 & H3).
      exists m'. rewrite E. destruct (tab_run t _) as [rs' t']. simpl in *. by rewrite <- app_assoc.
    + rewrite nm_get_spec by done. cbn [obind]. rewrite Ht by done.
      destruct (nm_set_spec m r c (f (t r c)) Hwf Hr Hc) as (m1 & -> & Hwf1 & Hs1 & Hcell). cbn [obind].
      pose proof Hs1 as (Ew & Er & Ec).
      match goal with |- context[tab_run ?t' _] => set (t1 := t') end.
      destruct (IH m1 (rs ++ []) t1 Hwf1) as (m' & E & H1 & H2 & H3).
      { intros r' c' Hr' Hc'. rewrite Er in Hr'. rewrite Ec in Hc'. rewrite Hcell by done. unfold t1.
        destruct (_ && _); [done|by apply Ht]. }
      { by rewrite Er, Ec. }
      exists m'. rewrite app_nil_r, Ew in E. rewrite app_nil_r, E. rewrite Ew, Er, Ec in H3. destruct (tab_run t1 _) as [rs' t']. simpl in *.
      split; [done|]. split; [done|]. split; [|done].
      destruct H2 as (? & ? & ?). split_and!; congruence.
Qed.
Lemma nm_refines w rows cols os : nm_fits w rows cols -> Forall (m_in rows cols) os ->
  exists m, nm_run (nm_new w rows cols) os = Ret ((tab_run (fun _ _ => 0%Z) (map (stored w) os)).1, m) /\
    nm_w m = w /\ nm_rows m = rows /\ nm_cols m = cols /\
    forall r c, r < rows -> c < cols -> nm_get m r c = Ret ((tab_run (fun _ _ => 0%Z) (map (stored w) os)).2 r c).
Proof.
  intros Hfit Hf. destruct (nm_new_wf w rows cols Hfit) as (Hwf & Er & Ec & Ew & Hz).
  destruct (nm_refine_run os (nm_new w rows cols) [] (fun _ _ => 0%Z) Hwf) as (m & E & H1 & (? & ? & ?) & H3).
  { intros. apply Hz. } { by rewrite Er, Ec. }
  rewrite Ew in *. exists m. split; [exact E|]. split; [congruence|]. split; [congruence|]. split; [congruence|].
  intros r c Hr Hc. rewrite nm_get_spec by (auto; congruence). f_equal. apply H3; congruence.
Qed.

(** bit matrix *)
Inductive bm_op := BmTest (r c : nat) | BmSet (r c : nat) | BmClear (r c : nat) | BmFlip (r c : nat).
Definition bm_as (o : bm_op) : m_op bool :=
  match o with
  | BmTest r c => MGet r c | BmSet r c => MPut r c (fun _ => true)
  | BmClear r c => MPut r c (fun _ => false) | BmFlip r c => MPut r c negb
  end.
Definition bm_step (W : nat) (m : bmatrix) (o : bm_op) : outcome (list bool * bmatrix) :=
  match o with
  | BmTest r c => let* v := bm_test W m r c in Ret ([v], m)
  | BmSet r c => let* m := bm_set W m r c in Ret ([], m)
  | BmClear r c => let* m := bm_clear W m r c in Ret ([], m)
  | BmFlip r c => let* m := bm_flip W m r c in Ret ([], m)
  end.
Definition bm_run (W : nat) (m : bmatrix) (os : list bm_op) : outcome (list bool * bmatrix) :=
  ofold os ([], m) (fun o '(rs, m) => let* '(r, m) := bm_step W m o in Ret (rs ++ r, m)).

Lemma bm_refine_run W os : 0 < W -> forall m rs (t : nat -> nat -> bool),
  bm_wf W m -> bm_clear_padding W m ->
  (forall r c, r < bm_rows m -> c < bm_cols m -> bm_bit W m r c = t r c) ->
  Forall (fun o => m_in (bm_rows m) (bm_cols m) (bm_as o)) os ->
  exists m', ofold os (rs, m) (fun o '(rs, m) => let* '(r, m) := bm_step W m o in Ret (rs ++ r, m))
    = Ret (rs ++ (tab_run t (map bm_as os)).1, m') /\ bm_wf W m' /\ bm_clear_padding W m' /\ bm_same_shape m m' /\
    forall r c, r < bm_rows m -> c < bm_cols m -> bm_bit W m' r c = (tab_run t (map bm_as os)).2 r c.
Proof.
  intros HW. induction os as [|o os IH]; intros m rs t Hwf Hpad Ht Hf; cbn [ofold map tab_run].
  - exists m. rewrite app_nil_r. repeat split; auto; apply Hwf.
  - inversion Hf as [|? ? Ho Hf']; subst.
    assert (exists r c, m_in (bm_rows m) (bm_cols m) (bm_as o) /\ r < bm_rows m /\ c < bm_row_blocks m * W /\ c < bm_cols m /\
      match o with BmTest r' c' | BmSet r' c' | BmClear r' c' | BmFlip r' c' => r' = r /\ c' = c end) as
      (r & c & _ & Hr & Hcb & Hc & Eo).
    { destruct Hwf as [Hle _]. destruct o as [r c|r c|r c|r c]; destruct Ho as [Hr Hc]; exists r, c; (split; [split; done|]); repeat split; try done; lia. }
    assert (forall m1 (f : bool -> bool) (t1 : nat -> nat -> bool), bm_wf W m1 -> bm_same_shape m m1 ->
      (forall r' c', c' < bm_row_blocks m * W ->
         bm_bit W m1 r' c' = if Nat.eqb r' r && Nat.eqb c' c then f (bm_bit W m r c) else bm_bit W m r' c') ->
      bm_clear_padding W m1 /\
      (forall r' c', r' < bm_rows m1 -> c' < bm_cols m1 -> bm_bit W m1 r' c' =
         if Nat.eqb r' r && Nat.eqb c' c then f (t r c) else t r' c')) as Hput.
    { intros m1 f t1 Hwf1 (Er & Ec & Eb) Hb. split.
      - intros r' c' Hr' [Hge Hlt]. rewrite Er in Hr'. rewrite Ec in Hge. rewrite Eb in Hlt. rewrite Hb by done.
        rewrite (proj2 (Nat.eqb_neq c' c)) by lia. rewrite andb_false_r. by apply Hpad.
      - intros r' c' Hr' Hc'. rewrite Er in Hr'. rewrite Ec in Hc'. destruct Hwf as [Hle _].
        rewrite Hb by lia. rewrite !Ht by done. done. }
    destruct o as [r' c'|r' c'|r' c'|r' c']; destruct Eo as [-> ->]; cbn [bm_step bm_as tab_step].
    + rewrite bm_test_spec by done. cbn [obind]. rewrite Ht by done.
      destruct (IH m (rs ++ [t r c]) t Hwf Hpad Ht Hf') as (m' & E & H1 & H2 & H3 & H4).
      exists m'. rewrite E. destruct (tab_run t _) as [rs' t']. simpl in *. by rewrite <- app_assoc.
    + destruct (bm_set_spec W m r c HW Hwf Hr Hcb) as (m1 & -> & Hwf1 & Hs1 & Hb). cbn [obind].
      pose proof Hs1 as (Er & Ec & Eb). destruct (Hput m1 (fun _ => true) t Hwf1 Hs1 Hb) as [Hp1 Ht1].
      match goal with |- context[tab_run ?t' _] => set (t1 := t') end.
      destruct (IH m1 (rs ++ []) t1 Hwf1 Hp1 Ht1) as (m' & E & H1 & H2 & (?&?&?) & H4); [by rewrite Er, Ec|].
      exists m'. rewrite app_nil_r in E. rewrite app_nil_r, E. rewrite Er, Ec in H4. destruct (tab_run t1 _) as [rs' t']. simpl in *.
      split; [done|]. split; [done|]. split; [done|]. split; [|done]. split_and!; congruence.
    + destruct (bm_clear_spec W m r c HW Hwf Hr Hcb) as (m1 & -> & Hwf1 & Hs1 & Hb). cbn [obind].
      pose proof Hs1 as (Er & Ec & Eb). destruct (Hput m1 (fun _ => false) t Hwf1 Hs1 Hb) as [Hp1 Ht1].
      match goal with |- context[tab_run ?t' _] => set (t1 := t') end.
      destruct (IH m1 (rs ++ []) t1 Hwf1 Hp1 Ht1) as (m' & E & H1 & H2 & (?&?&?) & H4); [by rewrite Er, Ec|].
      exists m'. rewrite app_nil_r in E. rewrite app_nil_r, E. rewrite Er, Ec in H4. destruct (tab_run t1 _) as [rs' t']. simpl in *.
      split; [done|]. split; [done|]. split; [done|]. split; [|done]. split_and!; congruence.
    + destruct (bm_flip_spec W m r c HW Hwf Hr Hcb) as (m1 & -> & Hwf1 & Hs1 & Hb). cbn [obind].
      pose proof Hs1 as (Er & Ec & Eb). destruct (Hput m1 negb t Hwf1 Hs1 Hb) as [Hp1 Ht1].
      match goal with |- context[tab_run ?t' _] => set (t1 := t') end.
      destruct (IH m1 (rs ++ []) t1 Hwf1 Hp1 Ht1) as (m' & E & H1 & H2 & (?&?&?) & H4); [by rewrite Er, Ec|].
      exists m'. rewrite app_nil_r in E. rewrite app_nil_r, E. rewrite Er, Ec in H4. destruct (tab_run t1 _) as [rs' t']. simpl in *.
      split; [done|]. split; [done|]. split; [done|]. split; [|done]. split_and!; congruence.
Qed.
Lemma bm_refines W rows cols os : bm_fits W rows cols -> Forall (fun o => m_in rows cols (bm_as o)) os ->
  exists m, bm_run W (bm_new W rows cols) os = Ret ((tab_run (fun _ _ => false) (map bm_as os)).1, m) /\
    bm_rows m = rows /\ bm_cols m = cols /\
    (forall r c, r < rows -> c < cols -> bm_test W m r c = Ret ((tab_run (fun _ _ => false) (map bm_as os)).2 r c)) /\
    (forall r c, r < rows -> cols <= c < bm_row_blocks m * W -> bm_test W m r c = Ret false).
Proof.
  intros Hfit Hf. destruct (bm_new_wf W rows cols Hfit) as (Hwf & Er & Ec & Hz).
  assert (0 < W) as HW by (destruct Hfit as [[->|[->|[->| ->]]] _]; lia).
  destruct (bm_refine_run W os HW (bm_new W rows cols) [] (fun _ _ => false) Hwf) as (m & E & H1 & Hp & (E1 & E2 & E3) & H3).
  { intros r c _ _. apply Hz. } { intros. apply Hz. } { by rewrite Er, Ec. }
  exists m. split; [exact E|]. split; [congruence|]. split; [congruence|]. split.
  - intros r c Hr Hc. rewrite bm_test_spec; auto; [|congruence|destruct H1; simpl in *; lia].
    f_equal. apply H3; congruence.
  - intros r c Hr Hc. rewrite bm_test_spec; auto; [|congruence|lia]. f_equal. apply Hp; [congruence|].
    rewrite E2. simpl. lia.
Qed.

(** row starts of a bit matrix are multiples of 64 bytes *)
Lemma bm_row_aligned W rows cols r : bm_fits W rows cols ->
  ((Z.of_nat (r * bm_row_blocks (bm_new W rows cols)) * (Z.of_nat W / 8)) mod 64 = 0)%Z.
Proof.
  intros H. destruct (row_blocks_fits W rows cols H) as (E & _ & H0). simpl.
  rewrite Nat2Z.inj_mul, Z2Nat.id by done. rewrite E. destruct H as (HW & _).
  set (q := ((Z.of_nat cols + 511) / 512)%Z).
  replace (Z.of_nat r * (q * (64 / (Z.of_nat W / 8))) * (Z.of_nat W / 8))%Z
    with (Z.of_nat r * q * ((64 / (Z.of_nat W / 8)) * (Z.of_nat W / 8)))%Z by ring.
  replace ((64 / (Z.of_nat W / 8)) * (Z.of_nat W / 8))%Z with 64%Z by (destruct HW as [->|[->|[->| ->]]]; reflexivity).
  apply Z.mod_mul. lia.
Qed.

(** the size of the storage is computed modulo 2^32 *)
Lemma nm_huge : exists rows cols, (Z.of_nat rows < 4294967296)%Z /\ (Z.of_nat cols < 4294967296)%Z /\
  0 < rows /\ 0 < cols /\ nm_get (nm_new 8 rows cols) 0 0 = UB OutOfBounds.
Proof.
  exists (Z.to_nat 67108864), 64. rewrite Z2Nat.id by lia. split; [lia|]. split; [lia|]. split; [lia|]. split; [lia|].
  unfold nm_get, nm_new, nm_offset; cbn [nm_data]. rewrite Z2Nat.id by lia.
  assert (u32 (row_items 8 64 * 67108864) = 0)%Z as -> by (vm_compute; reflexivity).
  simpl. reflexivity.
Qed.
