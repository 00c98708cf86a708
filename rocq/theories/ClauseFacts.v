(** * Clause evaluation computes the conjunction of the included literals. *)
From Verif Require Export Algo Spec Wp.
Local Open Scope Z_scope.

Lemma forallb_seq_app f b n m :
  forallb f (seq b (n + m)) = forallb f (seq b n) && forallb f (seq (b + n) m).
Proof. rewrite seq_app. apply forallb_app. Qed.
Lemma existsb_seq_app f b n m :
  existsb f (seq b (n + m)) = existsb f (seq b n) || existsb f (seq (b + n) m).
Proof. rewrite seq_app. apply existsb_app. Qed.
Lemma forallb_false_le f n n' : (n <= n')%nat -> forallb f (seq 0 n) = false -> forallb f (seq 0 n') = false.
Proof.
  intros Hle H. replace n' with (n + (n' - n))%nat by lia. by rewrite forallb_seq_app, H.
Qed.
Lemma existsb_true_le f n n' : (n <= n')%nat -> existsb f (seq 0 n) = true -> existsb f (seq 0 n') = true.
Proof.
  intros Hle H. replace n' with (n + (n' - n))%nat by lia. by rewrite existsb_seq_app, H.
Qed.
Lemma forallb_seq_ext f g b n :
  (forall k, (b <= k < b + n)%nat -> f k = g k) -> forallb f (seq b n) = forallb g (seq b n).
Proof.
  revert b; induction n as [|n IH]; intros b H; simpl; [done|]. rewrite H by lia.
  rewrite IH; [done|]. intros; apply H; lia.
Qed.
Lemma existsb_seq_ext f g b n :
  (forall k, (b <= k < b + n)%nat -> f k = g k) -> existsb f (seq b n) = existsb g (seq b n).
Proof.
  revert b; induction n as [|n IH]; intros b H; simpl; [done|]. rewrite H by lia.
  rewrite IH; [done|]. intros; apply H; lia.
Qed.

(** ** Classic *)
Section Classic.
  Context (B : nat) (X : list Z) (m : nmatrix) (j : nat).
  Hypothesis (HB : (0 < B)%nat) (Hm : nm_sized m) (Hc : nm_cols m = length X) (Hj : (2 * j + 1 < nm_rows m)%nat)
             (HX : Forall (fun v => v = 0 \/ v = 1) X).
  Let good k := (negb (auto_inc m j k) || dense_bit X k) && (negb (auto_incn m j k) || negb (dense_bit X k)).
  Let lit k := auto_inc m j k || auto_incn m j k.

  Lemma cl_actions_spec k : (k < length X)%nat -> cl_actions m j k = Ret (auto_inc m j k, auto_incn m j k).
  Proof.
    intros Hk. unfold cl_actions. rewrite !nm_get_sized by (auto; lia). simpl.
    rewrite Nat.add_0_r. done.
  Qed.
  Lemma cl_x k : (k < length X)%nat -> exists x, vget X k = Ret x /\ (x = 0 \/ x = 1) /\ dense_bit X k = negb (x =? 0).
  Proof.
    intros Hk. destruct (vget_ret_lt X k Hk) as (x & E & ->). exists x. split; [done|].
    split; [by eapply Forall_lookup_1 in HX|]. unfold dense_bit. by rewrite E.
  Qed.
  Lemma cl_flag_spec x a b : (x = 0 \/ x = 1) ->
    cl_flag x a b = b2z (negb ((negb a || negb (x =? 0)) && (negb b || negb (negb (x =? 0))))).
  Proof. by intros [-> | ->]; destruct a, b. Qed.
  Lemma cl_miss_spec x a b : (x = 0 \/ x = 1) ->
    ((a && (x =? 0)) || (b && negb (x =? 0))) = negb ((negb a || negb (x =? 0)) && (negb b || negb (negb (x =? 0)))).
  Proof. by intros [-> | ->]; destruct a, b. Qed.

  Lemma cl_short_spec n fidx out : (fidx + n <= length X)%nat ->
    cl_short X m j n fidx out = Ret (out && forallb good (seq fidx n)).
  Proof.
    revert fidx out; induction n as [|n IH]; intros fidx out Hle; simpl; [by rewrite andb_true_r|].
    destruct out; [|done]. rewrite cl_actions_spec by lia. simpl.
    destruct (cl_x fidx ltac:(lia)) as (x & -> & Hx & Hd). simpl.
    rewrite cl_miss_spec by done. rewrite IH by lia. unfold good at 2. rewrite Hd.
    by destruct ((negb (auto_inc m j fidx) || negb (x =? 0)) && _).
  Qed.

  (** one tile *)
  Lemma cl_tile_spec kk n t : (kk + n <= length X)%nat -> (t = 0 \/ t = 1) ->
    ofor kk n t (fun fidx toggle =>
      let* '(inc, incn) := cl_actions m j fidx in
      let* x := vget X fidx in
      let flag := cl_flag x inc incn in
      Ret (if toggle <? flag then flag else toggle)) = Ret (b2z (negb ((t =? 0) && forallb good (seq kk n)))).
  Proof.
    unfold ofor. revert kk t; induction n as [|n IH]; intros kk t Hle Ht; simpl.
    { destruct Ht as [-> | ->]; done. }
    rewrite cl_actions_spec by lia. simpl.
    destruct (cl_x kk ltac:(lia)) as (x & -> & Hx & Hd). simpl.
    rewrite cl_flag_spec by done. rewrite <- Hd. fold (good kk).
    rewrite IH; [|lia|destruct Ht as [-> | ->], (good kk); simpl; auto].
    destruct Ht as [-> | ->], (good kk); done.
  Qed.

  Lemma cl_tiles_spec fuel kk :
    (kk <= length X)%nat -> (length X - kk < fuel)%nat -> forallb good (seq 0 kk) = true ->
    exists kk' t, cl_tiles B X m fuel j kk 0 = Ret (kk', t) /\ (kk' <= length X)%nat /\
      (t = 1 /\ forallb good (seq 0 (length X)) = false \/ t = 0 /\ forallb good (seq 0 kk') = true).
  Proof.
    revert kk; induction fuel as [|fuel IH]; intros kk Hk Hf Hg; [lia|]. simpl.
    case_decide as Hd; [|by exists kk, 0; auto].
    rewrite cl_tile_spec by (auto; lia). simpl.
    destruct (forallb good (seq kk B)) eqn:E; simpl.
    - apply IH; [lia|lia|]. by rewrite forallb_seq_app, Hg.
    - exists kk, 1. split; [done|]. split; [lia|]. left. split; [done|].
      apply (forallb_false_le _ (kk + B)); [lia|]. by rewrite forallb_seq_app, Hg.
  Qed.

  Lemma cl_tail_spec n fidx t : (fidx + n <= length X)%nat -> (t = 0 \/ t = 1) ->
    cl_tail X m j n fidx t = Ret (b2z (negb ((t =? 0) && forallb good (seq fidx n)))).
  Proof.
    revert fidx t; induction n as [|n IH]; intros fidx t Hle Ht; simpl.
    { destruct Ht as [-> | ->]; done. }
    destruct Ht as [-> | ->]; simpl; [|done].
    rewrite cl_actions_spec by lia. simpl.
    destruct (cl_x fidx ltac:(lia)) as (x & -> & Hx & Hd). simpl.
    rewrite cl_flag_spec by done. rewrite <- Hd. fold (good fidx).
    rewrite IH; [|lia|destruct (good fidx); simpl; auto].
    destruct (good fidx); done.
  Qed.

  Lemma cl_clause_spec :
    cl_clause B X m j = Ret (b2z (clause_true (length X) (auto_inc m j) (auto_incn m j) (dense_bit X))).
  Proof.
    unfold cl_clause. case_decide as Hd.
    - rewrite cl_short_spec by lia. done.
    - destruct (cl_tiles_spec (S (length X)) 0 ltac:(lia) ltac:(lia) eq_refl) as (kk & t & -> & Hk & H). simpl.
      rewrite cl_tail_spec by (destruct H as [[-> _]|[-> _]]; auto; lia). simpl.
      unfold clause_true.
      change (forallb (fun k => _) (seq 0 (length X))) with (forallb good (seq 0 (length X))).
      destruct H as [[-> H]|[-> H]]; simpl.
      + by rewrite H.
      + replace (length X) with (kk + (length X - kk))%nat at 2 by lia.
        rewrite forallb_seq_app, H. simpl. by destruct (forallb good (seq kk (length X - kk))).
  Qed.

  (** with pruning *)
  Lemma clp_short_spec n fidx out ae : (fidx + n <= length X)%nat ->
    exists ae', clp_short X m j n fidx out ae = Ret (out && forallb good (seq fidx n), ae') /\
      (out && forallb good (seq fidx n) = true -> ae' = ae && negb (existsb lit (seq fidx n))).
  Proof.
    revert fidx out ae; induction n as [|n IH]; intros fidx out ae Hle; simpl.
    { exists ae. rewrite !andb_true_r. auto. }
    destruct out; [|by eexists]. rewrite cl_actions_spec by lia. simpl.
    destruct (cl_x fidx ltac:(lia)) as (x & -> & Hx & Hd). simpl.
    rewrite cl_miss_spec by done. rewrite <- Hd. fold (good fidx). fold (lit fidx).
    destruct (IH (S fidx) (if negb (good fidx) then false else true) (if lit fidx then false else ae) ltac:(lia))
      as (ae' & -> & Hae). exists ae'. split; [by destruct (good fidx)|].
    destruct (good fidx); simpl in *; [|done]. intros H. rewrite Hae by done. by destruct (lit fidx), ae.
  Qed.

  Lemma clp_tile_spec kk n t a : (kk + n <= length X)%nat -> (t = 0 \/ t = 1) -> 0 <= a ->
    exists a', ofor kk n (t, a) (fun fidx '(toggle, nae) =>
      let* '(inc, incn) := cl_actions m j fidx in
      let* x := vget X fidx in
      let flag := cl_flag x inc incn in
      let xflag := b2z inc + b2z incn in
      Ret (if toggle <? flag then flag else toggle, if nae <? xflag then xflag else nae))
      = Ret (b2z (negb ((t =? 0) && forallb good (seq kk n))), a') /\
      0 <= a' /\ negb (a' =? 0) = negb (a =? 0) || existsb lit (seq kk n).
  Proof.
    unfold ofor. revert kk t a; induction n as [|n IH]; intros kk t a Hle Ht Ha; simpl.
    { exists a. rewrite orb_false_r. destruct Ht as [-> | ->]; done. }
    rewrite cl_actions_spec by lia. simpl.
    destruct (cl_x kk ltac:(lia)) as (x & -> & Hx & Hd). simpl.
    rewrite cl_flag_spec by done. rewrite <- Hd. fold (good kk).
    set (xf := b2z (auto_inc m j kk) + b2z (auto_incn m j kk)).
    set (a1 := if a <? xf then xf else a).
    assert (0 <= a1 /\ negb (a1 =? 0) = negb (a =? 0) || lit kk) as [Ha1 E1].
    { unfold a1, xf, lit. destruct (auto_inc m j kk), (auto_incn m j kk); simpl;
        destruct (Z.ltb_spec a (1+1)); destruct (Z.ltb_spec a (1+0)); destruct (Z.ltb_spec a (0+1));
        destruct (Z.ltb_spec a (0+0)); split; try lia;
        repeat match goal with |- context[?z =? 0] => destruct (Z.eqb_spec z 0); try lia end; auto. }
    destruct (IH (S kk) (if t <? b2z (negb (good kk)) then b2z (negb (good kk)) else t) a1) as (a' & -> & Ha' & E');
      [lia|destruct Ht as [-> | ->], (good kk); simpl; auto|done|].
    exists a'. split; [by destruct Ht as [-> | ->], (good kk)|]. split; [done|].
    rewrite E', E1. by rewrite orb_assoc.
  Qed.

  Lemma clp_tiles_spec fuel kk a :
    (kk <= length X)%nat -> (length X - kk < fuel)%nat -> forallb good (seq 0 kk) = true ->
    0 <= a -> negb (a =? 0) = existsb lit (seq 0 kk) ->
    exists kk' t a', clp_tiles B X m fuel j kk 0 a = Ret (kk', t, a') /\ (kk' <= length X)%nat /\
      (t = 1 /\ forallb good (seq 0 (length X)) = false \/
       t = 0 /\ forallb good (seq 0 kk') = true /\ 0 <= a' /\ negb (a' =? 0) = existsb lit (seq 0 kk')).
  Proof.
    revert kk a; induction fuel as [|fuel IH]; intros kk a Hk Hf Hg Ha Ea; [lia|]. cbn [clp_tiles].
    case_decide as Hd; [|by exists kk, 0, a; auto 10].
    destruct (clp_tile_spec kk B 0 a ltac:(lia) ltac:(auto) Ha) as (a' & E0 & Ha' & Ea').
    cbv zeta in E0. rewrite E0. clear E0. simpl.
    destruct (forallb good (seq kk B)) eqn:E; simpl.
    - apply IH; [lia|lia| |done|]. { by rewrite forallb_seq_app, Hg. }
      by rewrite Ea', Ea, existsb_seq_app.
    - exists kk, 1, a'. split; [done|]. split; [lia|]. left. split; [done|].
      apply (forallb_false_le _ (kk + B)); [lia|]. by rewrite forallb_seq_app, Hg.
  Qed.

  Lemma clp_tail_spec n fidx t a : (fidx + n <= length X)%nat -> (t = 0 \/ t = 1) -> 0 <= a ->
    exists a', clp_tail X m j n fidx t a = Ret (b2z (negb ((t =? 0) && forallb good (seq fidx n))), a') /\
      0 <= a' /\
      ((t =? 0) && forallb good (seq fidx n) = true -> negb (a' =? 0) = negb (a =? 0) || existsb lit (seq fidx n)).
  Proof.
    revert fidx t a; induction n as [|n IH]; intros fidx t a Hle Ht Ha; simpl.
    { exists a. rewrite orb_false_r. destruct Ht as [-> | ->]; done. }
    destruct Ht as [-> | ->]; simpl; [|by exists a].
    rewrite cl_actions_spec by lia. simpl.
    destruct (cl_x fidx ltac:(lia)) as (x & -> & Hx & Hd). simpl.
    rewrite cl_flag_spec by done. rewrite <- Hd. fold (good fidx).
    set (xf := b2z (auto_inc m j fidx) + b2z (auto_incn m j fidx)).
    set (a1 := if a <? xf then xf else a).
    assert (0 <= a1 /\ negb (a1 =? 0) = negb (a =? 0) || lit fidx) as [Ha1 E1].
    { unfold a1, xf, lit. destruct (auto_inc m j fidx), (auto_incn m j fidx); simpl;
        destruct (Z.ltb_spec a (1+1)); destruct (Z.ltb_spec a (1+0)); destruct (Z.ltb_spec a (0+1));
        destruct (Z.ltb_spec a (0+0)); split; try lia;
        repeat match goal with |- context[?z =? 0] => destruct (Z.eqb_spec z 0); try lia end; auto. }
    destruct (IH (S fidx) (if 0 <? b2z (negb (good fidx)) then b2z (negb (good fidx)) else 0) a1) as (a' & -> & Ha' & E');
      [lia|destruct (good fidx); simpl; auto|done|].
    exists a'. split; [by destruct (good fidx)|]. split; [done|].
    destruct (good fidx); simpl in *; [|done]. intros H. rewrite E', E1 by done. by rewrite orb_assoc.
  Qed.

  Lemma clp_clause_spec :
    clp_clause B X m j = Ret (b2z (clause_true (length X) (auto_inc m j) (auto_incn m j) (dense_bit X)
                                   && clause_nonempty (length X) (auto_inc m j) (auto_incn m j))).
  Proof.
    unfold clp_clause. unfold clause_true, clause_nonempty.
    change (forallb (fun k => _) (seq 0 (length X))) with (forallb good (seq 0 (length X))).
    change (existsb (fun k => _) (seq 0 (length X))) with (existsb lit (seq 0 (length X))).
    case_decide as Hd.
    - destruct (clp_short_spec (length X) 0 true true ltac:(lia)) as (ae & -> & H). simpl in *.
      destruct (forallb good (seq 0 (length X))); [rewrite H by done|];
        [by destruct (existsb lit (seq 0 (length X)))|by destruct ae].
    - destruct (clp_tiles_spec (S (length X)) 0 0 ltac:(lia) ltac:(lia) eq_refl ltac:(lia) eq_refl)
        as (kk & t & a & -> & Hk & H). simpl.
      destruct H as [[-> H]|(-> & H & Ha & Ea)].
      + rewrite H. simpl. replace (clp_tail _ _ _ _ _ 1 a) with (Ret (1, a)) by (by destruct (length X - kk)%nat).
        simpl. by destruct (a =? 0).
      + destruct (clp_tail_spec (length X - kk) kk 0 a ltac:(lia) ltac:(auto) Ha) as (a' & -> & Ha' & Ea'). simpl in *.
        replace (length X) with (kk + (length X - kk))%nat at 2 3 by lia.
        rewrite forallb_seq_app, existsb_seq_app, H. simpl.
        destruct (forallb good (seq kk (length X - kk))); simpl; [|by destruct (a' =? 0)].
        specialize (Ea' eq_refl). rewrite Ea in Ea'. rewrite <- Ea'. by destruct (a' =? 0).
  Qed.
End Classic.

(** ** Bitwise *)
Section Bitwise.
  Context (B : nat) (X : bit_vector) (p : bmatrix) (j : nat).
  Hypothesis (HB : (0 < B)%nat) (Hp : bm_wf 64 p) (Hpad : bm_clear_padding 64 p) (Hc : bm_cols p = bv_len X)
             (Hj : (2 * j + 1 < bm_rows p)%nat) (HX : bits_phys X).
  Notation nb := (bv_content_blocks 64 X).
  Let x k := bv_bit 64 X k.
  Let good k := (negb (pol_inc p j k) || x k) && (negb (pol_incn p j k) || negb (x k)).
  Let lit k := pol_inc p j k || pol_incn p j k.
  (** word [b] of the sample violates no literal *)
  Let wgood b := forallb good (seq (b * 64) 64).
  Let wlit b := existsb lit (seq (b * 64) 64).

  Lemma nb_le_row : (nb <= bm_row_blocks p)%nat.
  Proof.
    destruct Hp as (H & _). unfold bv_content_blocks, blocks_for.
    apply Nat.lt_succ_r. apply Nat.div_lt_upper_bound; lia.
  Qed.

  Lemma word_zero (w : N) f : block_ok 64 w -> (forall i, (i < 64)%nat -> N.testbit w (N.of_nat i) = f i) ->
    N.eqb w 0 = negb (existsb f (seq 0 64)).
  Proof.
    intros Hw Hf. destruct (existsb f (seq 0 64)) eqn:E; simpl.
    - apply existsb_exists in E as (i & Hi%in_seq & E). apply N.eqb_neq. intros ->.
      rewrite <- Hf in E by lia. rewrite N.bits_0 in E. done.
    - apply N.eqb_eq. apply N.bits_inj. intros k. rewrite N.bits_0.
      destruct (N.lt_ge_cases k 64) as [Hk|Hk]; [|by apply Hw].
      rewrite <- (N2Nat.id k). rewrite Hf by lia.
      destruct (f (N.to_nat k)) eqn:Ef; [|done].
      assert (existsb f (seq 0 64) = true) as Ht; [|congruence].
      apply existsb_exists. exists (N.to_nat k). rewrite in_seq. split; [lia|done].
  Qed.
  Lemma seq_shift_existsb f b : existsb f (seq b 64) = existsb (fun i => f (b + i)%nat) (seq 0 64).
  Proof.
    assert (forall n s, existsb f (seq (b + s) n) = existsb (fun i => f (b + i)%nat) (seq s n)) as H.
    { induction n as [|n IH]; intros s; simpl; [done|]. by rewrite <- IH, Nat.add_succ_r. }
    rewrite <- (H 64%nat 0%nat). by rewrite Nat.add_0_r.
  Qed.
  Lemma existsb_negb_forallb {T} (f : T -> bool) (l : list T) : existsb (fun k => negb (f k)) l = negb (forallb f l).
  Proof. induction l as [|a l IH]; simpl; [done|]. rewrite IH. by destruct (f a). Qed.

  Lemma bw_eval_spec b : (b < nb)%nat ->
    exists ev inc incn, bw_eval X p j b = Ret (ev, inc, incn) /\
      N.eqb ev 0 = wgood b /\ N.eqb (N.lor inc incn) 0 = negb (wlit b).
  Proof.
    intros Hb. pose proof nb_le_row. unfold bw_eval.
    destruct (bm_block_spec 64 p (2 * j + 0) b) as (i1 & -> & O1 & T1); [lia|done|lia|lia|].
    destruct (bm_block_spec 64 p (2 * j + 1) b) as (i2 & -> & O2 & T2); [lia|done|lia|lia|].
    simpl. destruct HX as [HXl HXo].
    destruct (vget_ret_lt (bv_blocks X) b) as (w & Ew & ->). { rewrite HXl. done. }
    simpl. eexists _, _, _. split; [done|].
    assert (block_ok 64 w) as Ow by (by eapply Forall_lookup_1 in HXo).
    assert (forall i, (i < 64)%nat -> N.testbit w (N.of_nat i) = x (b * 64 + i)) as Tw.
    { intros i Hi. unfold x, bv_bit.
      rewrite Nat.div_add_l, (Nat.div_small i), Nat.add_0_r, Ew by lia.
      rewrite Nat.add_comm, Nat.mod_add, Nat.mod_small by lia. done. }
    split.
    - rewrite (word_zero _ (fun i => negb (good (b * 64 + i)))).
      + unfold wgood. rewrite <- seq_shift_existsb with (f := fun k => negb (good k)), existsb_negb_forallb.
        apply negb_involutive.
      + apply block_ok_lor; apply block_ok_land_l; done.
      + intros i Hi. rewrite N.lor_spec, !N.land_spec, testbit_bnot by lia.
        rewrite T1, T2, Tw by done. unfold good, pol_inc, pol_incn.
        rewrite Nat.add_0_r. destruct (bm_bit _ _ _ _), (bm_bit _ _ (2 * j + 1)%nat _), (x _); done.
    - rewrite (word_zero _ (fun i => lit (b * 64 + i))).
      + unfold wlit. by rewrite <- seq_shift_existsb with (f := lit).
      + by apply block_ok_lor.
      + intros i Hi. rewrite N.lor_spec, T1, T2 by done. unfold lit, pol_inc, pol_incn. by rewrite Nat.add_0_r.
  Qed.

  (** words cover the features *)
  Lemma words_forallb f n : forallb (fun b => forallb f (seq (b * 64) 64)) (seq 0 n) = forallb f (seq 0 (n * 64)).
  Proof.
    induction n as [|n IH]; [done|]. rewrite seq_S, forallb_app, IH. cbn [forallb Nat.add].
    replace (S n * 64)%nat with (n * 64 + 64)%nat by lia. rewrite forallb_seq_app, andb_true_r. done.
  Qed.
  Lemma words_existsb f n : existsb (fun b => existsb f (seq (b * 64) 64)) (seq 0 n) = existsb f (seq 0 (n * 64)).
  Proof.
    induction n as [|n IH]; [done|]. rewrite seq_S, existsb_app, IH. cbn [existsb Nat.add].
    replace (S n * 64)%nat with (n * 64 + 64)%nat by lia. rewrite existsb_seq_app, orb_false_r. done.
  Qed.
  Lemma pad_pol r c : (r < bm_rows p)%nat -> (bv_len X <= c < nb * 64)%nat -> bm_bit 64 p r c = false.
  Proof. intros. apply Hpad; [done|]. rewrite Hc. pose proof nb_le_row. nia. Qed.
  Lemma words_good : forallb wgood (seq 0 nb) = clause_true (bv_len X) (pol_inc p j) (pol_incn p j) x.
  Proof.
    unfold wgood. rewrite words_forallb.
    assert (bv_len X <= nb * 64)%nat as Hle by (apply blocks_for_bits; lia).
    replace (nb * 64)%nat with (bv_len X + (nb * 64 - bv_len X))%nat by lia.
    rewrite forallb_seq_app. unfold clause_true. fold good.
    replace (forallb good (seq (0 + bv_len X) _)) with true; [by rewrite andb_true_r|].
    symmetry. apply forallb_forall. intros k Hk%in_seq.
    unfold good, pol_inc, pol_incn. rewrite !pad_pol by lia. done.
  Qed.
  Lemma words_lit : existsb wlit (seq 0 nb) = clause_nonempty (bv_len X) (pol_inc p j) (pol_incn p j).
  Proof.
    unfold wlit. rewrite words_existsb.
    assert (bv_len X <= nb * 64)%nat as Hle by (apply blocks_for_bits; lia).
    replace (nb * 64)%nat with (bv_len X + (nb * 64 - bv_len X))%nat by lia.
    rewrite existsb_seq_app. unfold clause_nonempty. fold lit.
    replace (existsb lit (seq (0 + bv_len X) _)) with false; [by rewrite orb_false_r|].
    symmetry. apply not_true_iff_false. intros (k & Hk%in_seq & H)%existsb_exists.
    unfold lit, pol_inc, pol_incn in H. rewrite !pad_pol in H by lia. done.
  Qed.

  Lemma max_zero (t e : N) : N.eqb (if (t <? e)%N then e else t) 0 = N.eqb t 0 && N.eqb e 0.
  Proof. destruct (N.ltb_spec t e), (N.eqb_spec t 0), (N.eqb_spec e 0); subst; simpl; try lia; by apply N.eqb_eq || by apply N.eqb_neq. Qed.

  Lemma bw_short_spec n b out : (b + n <= nb)%nat -> bw_short X p j n b out = Ret (out && forallb wgood (seq b n)).
  Proof.
    revert b out; induction n as [|n IH]; intros b out Hle; cbn [bw_short seq forallb]; [by rewrite andb_true_r|].
    destruct out; [|done]. destruct (bw_eval_spec b ltac:(lia)) as (ev & ? & ? & -> & E & _). simpl.
    rewrite IH, E by lia. done.
  Qed.
  Lemma bw_tile_spec kk n t : (kk + n <= nb)%nat ->
    exists t', ofor kk n t (fun fidx toggle => let* '(ev, _, _) := bw_eval X p j fidx in
            Ret (if (toggle <? ev)%N then ev else toggle)) = Ret t' /\
      N.eqb t' 0 = N.eqb t 0 && forallb wgood (seq kk n).
  Proof.
    unfold ofor. revert kk t; induction n as [|n IH]; intros kk t Hle; cbn [ofold seq forallb].
    { exists t. by rewrite andb_true_r. }
    destruct (bw_eval_spec kk ltac:(lia)) as (ev & ? & ? & -> & E & _). simpl.
    destruct (IH (S kk) (if (t <? ev)%N then ev else t) ltac:(lia)) as (t' & -> & Et). exists t'. split; [done|].
    by rewrite Et, max_zero, E, andb_assoc.
  Qed.
  Lemma bw_tiles_spec fuel kk :
    (kk <= nb)%nat -> (nb - kk < fuel)%nat -> forallb wgood (seq 0 kk) = true ->
    exists kk' t, bw_tiles B X p fuel j kk 0 = Ret (kk', t) /\ (kk' <= nb)%nat /\
      (N.eqb t 0 = false /\ forallb wgood (seq 0 nb) = false \/ t = 0%N /\ forallb wgood (seq 0 kk') = true).
  Proof.
    revert kk; induction fuel as [|fuel IH]; intros kk Hk Hf Hg; [lia|]. cbn [bw_tiles].
    case_decide as Hd; [|by exists kk, 0%N; auto].
    destruct (bw_tile_spec kk B 0 ltac:(lia)) as (t & -> & Et). cbn [obind]. rewrite Et.
    destruct (forallb wgood (seq kk B)) eqn:E; cbn [N.eqb andb negb] in *.
    - apply N.eqb_eq in Et as ->. apply IH; [lia|lia|]. by rewrite forallb_seq_app, Hg.
    - exists kk, t. split; [done|]. split; [lia|]. left. split; [done|].
      apply (forallb_false_le _ (kk + B)); [lia|]. by rewrite forallb_seq_app, Hg.
  Qed.
  Lemma bw_tail_spec n b t : (b + n <= nb)%nat ->
    exists t', bw_tail X p j n b t = Ret t' /\ N.eqb t' 0 = N.eqb t 0 && forallb wgood (seq b n).
  Proof.
    revert b t; induction n as [|n IH]; intros b t Hle; cbn [bw_tail seq forallb].
    { exists t. by rewrite andb_true_r. }
    destruct (N.eqb t 0) eqn:Et0; [|exists t; split; [done|by rewrite Et0]].
    destruct (bw_eval_spec b ltac:(lia)) as (ev & ? & ? & -> & E & _). simpl.
    destruct (IH (S b) (if (t <? ev)%N then ev else t) ltac:(lia)) as (t' & -> & Et). exists t'. split; [done|].
    by rewrite Et, max_zero, E, Et0.
  Qed.

  Lemma bw_clause_spec : bw_clause B X p j = Ret (b2z (clause_true (bv_len X) (pol_inc p j) (pol_incn p j) x)).
  Proof.
    unfold bw_clause. rewrite <- words_good. case_decide as Hd.
    - by rewrite bw_short_spec by lia.
    - destruct (bw_tiles_spec (S nb) 0 ltac:(lia) ltac:(lia) eq_refl) as (kk & t & -> & Hk & H). cbn [obind].
      destruct (bw_tail_spec (nb - kk) kk t ltac:(lia)) as (t' & -> & Et). cbn [obind]. rewrite Et.
      destruct H as [[-> H]|[-> H]]; [by rewrite H|].
      replace nb with (kk + (nb - kk))%nat at 2 by lia. rewrite forallb_seq_app, H. done.
  Qed.

  Lemma bwp_short_spec n b out a : (b + n <= nb)%nat ->
    exists a', bwp_short X p j n b out a = Ret (out && forallb wgood (seq b n), a') /\
      (out && forallb wgood (seq b n) = true -> N.eqb a' 0 = N.eqb a 0 && negb (existsb wlit (seq b n))).
  Proof.
    revert b out a; induction n as [|n IH]; intros b out a Hle; cbn [bwp_short seq forallb existsb].
    { exists a. by rewrite !andb_true_r. }
    destruct out; [|by eexists]. destruct (bw_eval_spec b ltac:(lia)) as (ev & i1 & i2 & -> & E & El). simpl.
    destruct (IH (S b) (N.eqb ev 0) (if (a <? N.lor i1 i2)%N then N.lor i1 i2 else a) ltac:(lia)) as (a' & -> & Ha).
    exists a'. rewrite E in *. split; [done|]. intros H. rewrite Ha by done.
    rewrite max_zero, El, negb_orb. by rewrite andb_assoc.
  Qed.
  Lemma bwp_tile_spec kk n t a : (kk + n <= nb)%nat ->
    exists t' a', ofor kk n (t, a) (fun fidx '(toggle, anyi) => let* '(ev, inc, incn) := bw_eval X p j fidx in
            let u := N.lor inc incn in
            Ret (if (toggle <? ev)%N then ev else toggle, if (anyi <? u)%N then u else anyi)) = Ret (t', a') /\
      N.eqb t' 0 = N.eqb t 0 && forallb wgood (seq kk n) /\
      N.eqb a' 0 = N.eqb a 0 && negb (existsb wlit (seq kk n)).
  Proof.
    unfold ofor. revert kk t a; induction n as [|n IH]; intros kk t a Hle; cbn [ofold seq forallb existsb].
    { exists t, a. by rewrite !andb_true_r. }
    destruct (bw_eval_spec kk ltac:(lia)) as (ev & i1 & i2 & -> & E & El). simpl.
    destruct (IH (S kk) (if (t <? ev)%N then ev else t) (if (a <? N.lor i1 i2)%N then N.lor i1 i2 else a) ltac:(lia))
      as (t' & a' & -> & Et & Ea). exists t', a'. split; [done|].
    rewrite Et, Ea, !max_zero, E, El, !andb_assoc, negb_orb, andb_assoc. done.
  Qed.
  Lemma bwp_tiles_spec fuel kk a :
    (kk <= nb)%nat -> (nb - kk < fuel)%nat -> forallb wgood (seq 0 kk) = true ->
    N.eqb a 0 = negb (existsb wlit (seq 0 kk)) ->
    exists kk' t a', bwp_tiles B X p fuel j kk 0 a = Ret (kk', t, a') /\ (kk' <= nb)%nat /\
      (N.eqb t 0 = false /\ forallb wgood (seq 0 nb) = false \/
       t = 0%N /\ forallb wgood (seq 0 kk') = true /\ N.eqb a' 0 = negb (existsb wlit (seq 0 kk'))).
  Proof.
    revert kk a; induction fuel as [|fuel IH]; intros kk a Hk Hf Hg Ha; [lia|]. cbn [bwp_tiles].
    case_decide as Hd; [|by exists kk, 0%N, a; auto 10].
    destruct (bwp_tile_spec kk B 0 a ltac:(lia)) as (t & a' & E0 & Et & Ea).
    cbv zeta in E0. rewrite E0. clear E0. cbn [obind]. rewrite Et.
    destruct (forallb wgood (seq kk B)) eqn:E; cbn [N.eqb andb negb] in *.
    - apply N.eqb_eq in Et as ->. apply IH; [lia|lia| |]; [by rewrite forallb_seq_app, Hg|].
      by rewrite Ea, Ha, existsb_seq_app, negb_orb.
    - exists kk, t, a'. split; [done|]. split; [lia|]. left. split; [done|].
      apply (forallb_false_le _ (kk + B)); [lia|]. by rewrite forallb_seq_app, Hg.
  Qed.
  Lemma bwp_tail_spec n b t a : (b + n <= nb)%nat ->
    exists t' a', bwp_tail X p j n b t a = Ret (t', a') /\ N.eqb t' 0 = N.eqb t 0 && forallb wgood (seq b n) /\
      (N.eqb t' 0 = true -> N.eqb a' 0 = N.eqb a 0 && negb (existsb wlit (seq b n))).
  Proof.
    revert b t a; induction n as [|n IH]; intros b t a Hle; cbn [bwp_tail seq forallb existsb].
    { exists t, a. by rewrite !andb_true_r. }
    destruct (N.eqb t 0) eqn:Et0; [|exists t, a; split; [done|by rewrite Et0]].
    destruct (bw_eval_spec b ltac:(lia)) as (ev & i1 & i2 & -> & E & El). simpl.
    destruct (IH (S b) (if (t <? ev)%N then ev else t) (if (a <? N.lor i1 i2)%N then N.lor i1 i2 else a) ltac:(lia))
      as (t' & a' & -> & Et & Ea). exists t', a'. split; [done|].
    split; [by rewrite Et, max_zero, E, Et0|]. intros H. rewrite Ea by done.
    rewrite max_zero, El, negb_orb. by rewrite andb_assoc.
  Qed.

  Lemma bwp_clause_spec :
    bwp_clause B X p j = Ret (b2z (clause_true (bv_len X) (pol_inc p j) (pol_incn p j) x
                                   && clause_nonempty (bv_len X) (pol_inc p j) (pol_incn p j))).
  Proof.
    unfold bwp_clause. rewrite <- words_good, <- words_lit.
    assert (forall a, (0 <? a)%N = negb (N.eqb a 0)) as Hpos.
    { intros a. by destruct (N.ltb_spec 0 a), (N.eqb_spec a 0); try lia. }
    case_decide as Hd.
    - destruct (bwp_short_spec nb 0 true 0 ltac:(lia)) as (a & -> & H). cbn [obind andb] in *. rewrite Hpos.
      destruct (forallb wgood (seq 0 nb)); [rewrite H by done|by destruct (N.eqb a 0)].
      change (N.eqb 0 0) with true. by destruct (existsb wlit (seq 0 nb)).
    - destruct (bwp_tiles_spec (S nb) 0 0 ltac:(lia) ltac:(lia) eq_refl eq_refl) as (kk & t & a & -> & Hk & H).
      cbn [obind].
      destruct (bwp_tail_spec (nb - kk) kk t a ltac:(lia)) as (t' & a' & -> & Et & Ea). cbn [obind]. rewrite Hpos.
      destruct H as [[Ht H]|(-> & H & Ha)].
      + rewrite H. rewrite Ht in Et. cbn in Et. destruct (N.eqb a' 0); cbn; [done|by rewrite Et].
      + replace (seq 0 nb) with (seq 0 (kk + (nb - kk))) by (f_equal; lia). rewrite forallb_seq_app, existsb_seq_app, H. cbn [andb].
        cbn [andb] in Et. change (N.eqb 0 0) with true in Et. cbn [andb] in Et.
        destruct (forallb wgood (seq (0 + kk) (nb - kk))) eqn:Eg; cbn [Nat.add] in Eg; rewrite Eg in Et.
        * rewrite Ea by done. rewrite Ha, <- negb_orb. cbn [Nat.add].
          destruct (existsb wlit (seq 0 kk) || existsb wlit (seq kk (nb - kk))); cbn; [by rewrite Et|done].
        * cbn. destruct (N.eqb a' 0); cbn; [done|by rewrite Et].
  Qed.
End Bitwise.
