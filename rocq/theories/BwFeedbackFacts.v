(** * Exact effect of the bitwise feedback loops on automata and polarity bits. *)
From Verif Require Export FeedbackFacts.
Local Open Scope Z_scope.

Notation mp := (nmatrix * bmatrix)%type.
(** automaton state and polarity bit of one literal *)
Definition jv (s : mp) (r c : nat) : Z * bool := (nm_cell s.1 r c, bm_bit 64 s.2 r c).
Definition bgood (s : mp) : Prop :=
  nm_good s.1 /\ bm_wf 64 s.2 /\ bm_rows s.2 = nm_rows s.1 /\ bm_cols s.2 = nm_cols s.1.
Definition bsame (s s' : mp) : Prop := nm_same_shape s.1 s'.1 /\ bm_same_shape s.2 s'.2.
Definition bupd (F : nat -> nat -> Z * bool -> Z * bool) (s s' : mp) : Prop :=
  bgood s' /\ bsame s s' /\
  (forall r c, (r < nm_rows s.1)%nat -> (c < nm_cols s.1)%nat -> jv s' r c = F r c (jv s r c)) /\
  (forall r c, (r < nm_rows s.1)%nat -> (nm_cols s.1 <= c < bm_row_blocks s.2 * 64)%nat ->
     bm_bit 64 s'.2 r c = bm_bit 64 s.2 r c).

Lemma bsame_refl s : bsame s s. Proof. by repeat split. Qed.
Lemma bsame_trans s1 s2 s3 : bsame s1 s2 -> bsame s2 s3 -> bsame s1 s3.
Proof. intros [(?&?&?) (?&?&?)] [(?&?&?) (?&?&?)]. repeat split; congruence. Qed.
Lemma bupd_refl s : bgood s -> bupd (fun _ _ v => v) s s.
Proof. intros H. split; [done|]. split; [apply bsame_refl|]. auto. Qed.
Lemma bupd_ext F G s s' : bupd F s s' ->
  (forall r c v, (r < nm_rows s.1)%nat -> (c < nm_cols s.1)%nat -> in_w (nm_w s.1) v.1 -> v = jv s r c -> F r c v = G r c v) ->
  bgood s -> bupd G s s'.
Proof.
  intros (H1 & H2 & H3 & H4) HE Hm. split; [done|]. split; [done|]. split; [|done].
  intros r c Hr Hc. rewrite H3 by done. apply HE; auto. destruct Hm as ((_ & _ & Hin) & _). by apply Hin.
Qed.
Lemma bupd_trans F G s1 s2 s3 : bupd F s1 s2 -> bupd G s2 s3 -> bupd (fun r c v => G r c (F r c v)) s1 s3.
Proof.
  intros (H1 & H2 & H3 & H3') (H4 & H5 & H6 & H6'). split; [done|].
  split; [by eapply bsame_trans|]. destruct H2 as [(E1 & E2 & E3) (E4 & E5 & E6)].
  split; intros r c Hr Hc.
  - rewrite H6 by congruence. by rewrite H3.
  - rewrite H6'; [|congruence|rewrite E3, E6; lia]. by rewrite H3'.
Qed.

Section Ops.
  Context (s : mp) (Hs : bgood s).
  Context (r c : nat) (Hr : (r < nm_rows s.1)%nat) (Hc : (c < nm_cols s.1)%nat).

  Lemma bgood_col : (c < bm_row_blocks s.2 * 64)%nat.
  Proof. destruct Hs as (_ & (H & _) & _ & E). lia. Qed.
  Lemma bgood_row : (r < bm_rows s.2)%nat.
  Proof. destruct Hs as (_ & _ & E & _). lia. Qed.

  Lemma bupd_nset v : exists m', nm_set s.1 r c v = Ret m' /\
    bupd (at_cell r c (fun p => (wrap_s (nm_w s.1) v, p.2))) s (m', s.2).
  Proof.
    destruct Hs as (Hn & Hb & Er & Ec). destruct (nupd_set s.1 r c v Hn Hr Hc) as (m' & E & Hg & Hsh & Hcell).
    exists m'. split; [done|]. pose proof Hsh as (E1 & E2 & E3).
    split; [|split; [|split]]; simpl.
    - split_and!; simpl; auto; congruence.
    - by repeat split.
    - intros r' c' Hr' Hc'. unfold jv, at_cell. simpl. rewrite Hcell by done. unfold at_cell. by destruct (_ && _).
    - done.
  Qed.
  Lemma bupd_flip : exists p', bm_flip 64 s.2 r c = Ret p' /\
    bupd (at_cell r c (fun p => (p.1, negb p.2))) s (s.1, p').
  Proof.
    pose proof bgood_col as Hc2. pose proof bgood_row as Hr2. destruct Hs as (Hn & Hb & Er & Ec).
    destruct (bm_flip_spec 64 s.2 r c) as (p' & E & Hwf & Hsh & Hbit); [lia|done|done|done|].
    exists p'. split; [done|]. pose proof Hsh as (E1 & E2 & E3). split; [|split; [|split]]; simpl.
    - split_and!; simpl; auto; congruence.
    - by repeat split.
    - intros r' c' Hr' Hc'. unfold jv, at_cell. simpl. rewrite Hbit by (destruct Hb as (? & _); lia).
      destruct (Nat.eqb_spec r' r) as [->|], (Nat.eqb_spec c' c) as [->|]; done.
    - intros r' c' Hr' Hc'. rewrite Hbit by lia. rewrite (proj2 (Nat.eqb_neq c' c)) by lia. by rewrite andb_false_r.
  Qed.

  (** decrement, tsetlini_algo_bitwise.hpp:489-498 *)
  Definition decf (N : Z) (v : Z * bool) : Z * bool := (down N v.1, if v.1 =? 0 then negb v.2 else v.2).
  Lemma bw_dec_cell_spec N : N <= 2 ^ (nm_w s.1 - 1) ->
    exists s', bw_dec_cell N r c s.1 s.2 = Ret s' /\ bupd (at_cell r c (decf N)) s s'.
  Proof.
    intros HN. unfold bw_dec_cell. destruct Hs as (Hn & _). rewrite nm_get_good by done. cbn [obind].
    assert (exists p', (if nm_cell s.1 r c =? 0 then bm_flip 64 s.2 r c else Ret s.2) = Ret p' /\
      bupd (at_cell r c (fun p => (p.1, if p.1 =? 0 then negb p.2 else p.2))) s (s.1, p')) as (p' & -> & U1).
    { destruct (Z.eqb_spec (nm_cell s.1 r c) 0) as [E|E].
      - destruct bupd_flip as (p' & -> & U). exists p'. split; [done|]. eapply bupd_ext; [exact U| |done].
        intros r' c' v _ _ _ ->. unfold at_cell. destruct (Nat.eqb_spec r' r) as [->|], (Nat.eqb_spec c' c) as [->|]; try done.
        simpl. by rewrite E.
      - exists s.2. split; [done|]. destruct s as [m0 p0]. eapply bupd_ext; [by apply bupd_refl| |done].
        intros r' c' v _ _ _ ->. unfold at_cell. destruct (Nat.eqb_spec r' r) as [->|], (Nat.eqb_spec c' c) as [->|]; try done.
        simpl in *. by rewrite (proj2 (Z.eqb_neq _ _) E). }
    cbn [obind].
    pose proof U1 as (Hg1 & _ & _).
    assert (exists m', (if - N <? nm_cell s.1 r c then nm_set s.1 r c (nm_cell s.1 r c - 1) else Ret s.1) = Ret m' /\
      bupd (at_cell r c (fun p => (down N (nm_cell s.1 r c), p.2))) (s.1, p') (m', p')) as (m' & -> & U2).
    { unfold down. destruct (Z.ltb_spec (- N) (nm_cell s.1 r c)) as [E|E].
      - destruct (nupd_set s.1 r c (nm_cell s.1 r c - 1) Hn Hr Hc) as (m' & -> & Hg & Hsh & Hcell).
        exists m'. split; [done|]. pose proof Hsh as (E1 & E2 & E3). destruct Hg1 as (G1 & G2 & G3 & G4); simpl in *.
        split; [|split; [|split]]; simpl.
        + split_and!; simpl; auto; congruence.
        + by repeat split.
        + intros r' c' Hr' Hc'. unfold jv, at_cell. simpl. rewrite Hcell by done. unfold at_cell.
          destruct (_ && _) eqn:Eb; [|done]. rewrite wrap_in_w; [done|apply Hn|].
          destruct Hn as (_ & Hw & Hin). specialize (Hin r c Hr Hc). unfold in_w in *. lia.
        + done.
      - exists s.1. split; [done|]. eapply bupd_ext; [by apply bupd_refl| |done].
        intros r' c' v _ _ _ ->. unfold at_cell. destruct (Nat.eqb_spec r' r) as [->|], (Nat.eqb_spec c' c) as [->|]; done. }
    cbn [obind]. exists (m', p'). split; [done|].
    eapply bupd_ext; [eapply bupd_trans; [exact U1|exact U2]| |done].
    intros r' c' v _ _ _ ->. unfold at_cell. destruct (Nat.eqb_spec r' r) as [->|], (Nat.eqb_spec c' c) as [->|]; done.
  Qed.

  (** positive increment, 630-641: polarity is flipped whenever the state is 0 afterwards *)
  Definition incf_any (N : Z) (v : Z * bool) : Z * bool :=
    (up N v.1, if up N v.1 =? 0 then negb v.2 else v.2).
  Lemma bw_inc_any_spec N : N <= 2 ^ (nm_w s.1 - 1) ->
    exists s', (let* st := nm_get s.1 r c in
                let* m := (if st <? N - 1 then nm_set s.1 r c (st + 1) else Ret s.1) in
                let* st := nm_get m r c in
                let* p := (if st =? 0 then bm_flip 64 s.2 r c else Ret s.2) in
                Ret (m, p)) = Ret s' /\ bupd (at_cell r c (incf_any N)) s s'.
  Proof.
    intros HN. destruct Hs as (Hn & Hb & Er & Ec). rewrite nm_get_good by done. cbn [obind].
    assert (exists m', (if nm_cell s.1 r c <? N - 1 then nm_set s.1 r c (nm_cell s.1 r c + 1) else Ret s.1) = Ret m' /\
      bupd (at_cell r c (fun p => (up N p.1, p.2))) s (m', s.2)) as (m' & -> & U1).
    { unfold up. destruct (Z.ltb_spec (nm_cell s.1 r c) (N - 1)) as [E|E].
      - destruct (bupd_nset (nm_cell s.1 r c + 1)) as (m' & -> & U). exists m'. split; [done|].
        eapply bupd_ext; [exact U| |done]. intros r' c' v _ _ _ ->. unfold at_cell.
        destruct (Nat.eqb_spec r' r) as [->|], (Nat.eqb_spec c' c) as [->|]; try done. simpl.
        rewrite (proj2 (Z.ltb_lt _ _)) by done. rewrite wrap_in_w; [done|apply Hn|].
        destruct Hn as (_ & Hw & Hin). specialize (Hin r c Hr Hc). unfold in_w in *. lia.
      - exists s.1. split; [done|]. destruct s as [m0 p0]. eapply bupd_ext; [by apply bupd_refl| |done].
        intros r' c' v _ _ _ ->. unfold at_cell. destruct (Nat.eqb_spec r' r) as [->|], (Nat.eqb_spec c' c) as [->|]; try done.
        simpl in *. by rewrite (proj2 (Z.ltb_ge _ _)). }
    cbn [obind]. pose proof U1 as (Hg1 & [(Ew1 & Er1 & Ec1) _] & Hj1 & _). simpl in *.
    rewrite nm_get_good by (try apply Hg1; lia). cbn [obind].
    assert (nm_cell m' r c = up N (nm_cell s.1 r c)) as Em.
    { specialize (Hj1 r c Hr Hc). unfold jv, at_cell in Hj1. rewrite !Nat.eqb_refl in Hj1. simpl in Hj1. by injection Hj1. }
    rewrite Em.
    assert (exists p', (if up N (nm_cell s.1 r c) =? 0 then bm_flip 64 s.2 r c else Ret s.2) = Ret p' /\
      bupd (at_cell r c (fun p => (p.1, if p.1 =? 0 then negb p.2 else p.2))) (m', s.2) (m', p')) as (p' & -> & U2).
    { rewrite <- Em. destruct (Z.eqb_spec (nm_cell m' r c) 0) as [E|E].
      - destruct (bm_flip_spec 64 s.2 r c) as (p' & E0 & Hwf & Hsh & Hbit);
          [lia|done|by apply bgood_row|by apply bgood_col|].
        exists p'. split; [done|]. pose proof Hsh as (E1 & E2 & E3). split; [|split; [|split]]; simpl.
        + destruct Hg1 as (G1 & G2 & G3 & G4). simpl in *. split_and!; simpl; auto; congruence.
        + by repeat split.
        + intros r' c' Hr' Hc'. unfold jv, at_cell. simpl. rewrite Hbit by (destruct Hb as (? & _); lia).
          destruct (Nat.eqb_spec r' r) as [->|], (Nat.eqb_spec c' c) as [->|]; try done. simpl. by rewrite E.
        + intros r' c' Hr' Hc'. rewrite Hbit by lia. rewrite (proj2 (Nat.eqb_neq c' c)) by lia. by rewrite andb_false_r.
      - exists s.2. split; [done|]. eapply bupd_ext; [by apply bupd_refl| |done].
        intros r' c' v _ _ _ ->. unfold at_cell. destruct (Nat.eqb_spec r' r) as [->|], (Nat.eqb_spec c' c) as [->|]; try done.
        simpl in *. by rewrite (proj2 (Z.eqb_neq _ _) E). }
    cbn [obind]. exists (m', p'). split; [done|].
    eapply bupd_ext; [eapply bupd_trans; [exact U1|exact U2]| |done].
    intros r' c' v _ _ _ ->. unfold at_cell. destruct (Nat.eqb_spec r' r) as [->|], (Nat.eqb_spec c' c) as [->|]; done.
  Qed.

  (** negated increment, 650-664: polarity is flipped only when the automaton moved *)
  Definition incf (N : Z) (v : Z * bool) : Z * bool :=
    if v.1 <? N - 1 then (v.1 + 1, if v.1 + 1 =? 0 then negb v.2 else v.2) else v.
  Lemma bw_inc_spec N : N <= 2 ^ (nm_w s.1 - 1) ->
    exists s', (let* st := nm_get s.1 r c in
                if st <? N - 1 then
                  let* m := nm_set s.1 r c (st + 1) in
                  let* st := nm_get m r c in
                  let* p := (if st =? 0 then bm_flip 64 s.2 r c else Ret s.2) in
                  Ret (m, p)
                else Ret s) = Ret s' /\ bupd (at_cell r c (incf N)) s s'.
  Proof.
    intros HN. pose proof (bw_inc_any_spec N HN) as (s' & E & U).
    destruct Hs as (Hn & Hb & Er & Ec). rewrite nm_get_good in * by done. cbn [obind] in *.
    destruct (Z.ltb_spec (nm_cell s.1 r c) (N - 1)) as [Hlt|Hge].
    - exists s'. split; [done|]. eapply bupd_ext; [exact U| |done]. intros r' c' v _ _ _ ->. unfold at_cell.
      destruct (Nat.eqb_spec r' r) as [->|], (Nat.eqb_spec c' c) as [->|]; try done. simpl.
      unfold incf_any, incf, up. simpl. by rewrite (proj2 (Z.ltb_lt _ _)).
    - exists s. split; [done|]. eapply bupd_ext; [by apply bupd_refl| |done]. intros r' c' v _ _ _ ->. unfold at_cell.
      destruct (Nat.eqb_spec r' r) as [->|], (Nat.eqb_spec c' c) as [->|]; try done. simpl.
      unfold incf. simpl. by rewrite (proj2 (Z.ltb_ge _ _)).
  Qed.
End Ops.

(** generic loop rule *)
Lemma bupd_loop j nf s FP FN body :
  bgood s -> nm_cols s.1 = nf -> (2 * j + 1 < nm_rows s.1)%nat ->
  (forall i s1, (i < nf)%nat -> bgood s1 -> bsame s s1 ->
     exists s2, body i s1 = Ret s2 /\
       bupd (fun r c v => if Nat.eqb c i then on_clause j FP FN r c v else v) s1 s2) ->
  exists s', ofor 0 nf s body = Ret s' /\ bupd (on_clause j FP FN) s s'.
Proof.
  intros Hm Hc Hj Hstep.
  destruct (ofor_inv (fun i s1 => bupd (upto j i FP FN) s s1) 0 nf s body) as (m' & E & Hn).
  - eapply bupd_ext; [by apply bupd_refl| |done]. intros. unfold upto. done.
  - intros i m1 Hi Hn. pose proof Hn as (Hg & Hs & _).
    destruct (Hstep i m1 ltac:(lia) Hg Hs) as (m2 & E & H2). exists m2. split; [done|].
    eapply bupd_ext; [eapply bupd_trans; [exact Hn|exact H2]| |done].
    intros r c v Hr Hcc Hin Ev. simpl. unfold upto, on_clause.
    destruct (Nat.eqb_spec c i) as [->|Hne].
    + rewrite (proj2 (Nat.ltb_ge i i)) by lia. by rewrite (proj2 (Nat.ltb_lt i (i + 1))) by lia.
    + destruct (Nat.ltb_spec c i), (Nat.ltb_spec c (i + 1)); try lia; done.
  - exists m'. split; [done|]. eapply bupd_ext; [exact Hn| |done].
    intros r c v Hr Hcc _ _. unfold upto, on_clause. by rewrite (proj2 (Nat.ltb_lt c _)) by lia.
Qed.

(** Type I, clause fired *)
Definition b2_pos (boost : bool) (N : Z) (x t : bool) (v : Z * bool) : Z * bool :=
  if x then (if boost || negb t then incf_any N v else v) else (if t then decf N v else v).
Definition b2_neg (boost : bool) (N : Z) (x t : bool) (v : Z * bool) : Z * bool :=
  if x then (if t then decf N v else v) else (if boost || negb t then incf N v else v).

Lemma bits_get nf X k : bits_ok nf X -> (k < nf)%nat -> bv_get 64 X k = Ret (bv_bit 64 X k).
Proof.
  intros (El & (Hl & Ho) & _) Hk. apply bv_get_spec; [lia| |lia].
  split; [|done]. rewrite Hl. apply blocks_for_bits. lia.
Qed.

Lemma at_cell_fuse {T} (j i : nat) (f g : T -> T) r c v :
  (if Nat.eqb c i then on_clause j (fun _ => f) (fun _ => g) r c v else v)
  = at_cell (2 * j + 1) i g r c (at_cell (2 * j) i f r c v).
Proof.
  unfold at_cell, on_clause. destruct (Nat.eqb_spec c i) as [->|]; [|by rewrite !andb_false_r]. rewrite !andb_true_r.
  destruct (Nat.eqb_spec r (2 * j)) as [->|]; [by rewrite (proj2 (Nat.eqb_neq (2 * j) (2 * j + 1))) by lia|done].
Qed.

Lemma bw_block2_spec boost N j nf X ct1 ct2 s :
  bgood s -> nm_cols s.1 = nf -> (2 * j + 1 < nm_rows s.1)%nat -> zo_list nf ct1 -> zo_list nf ct2 -> bits_ok nf X ->
  N <= 2 ^ (nm_w s.1 - 1) ->
  exists s', bw_block2 boost N j X ct1 ct2 s = Ret s' /\
    bupd (on_clause j (fun k => b2_pos boost N (bv_bit 64 X k) (toss ct1 k))
                      (fun k => b2_neg boost N (bv_bit 64 X k) (toss ct2 k))) s s'.
Proof.
  intros Hs Hc Hj H1 H2 HX HN. unfold bw_block2. pose proof HX as (El & _). rewrite El.
  apply bupd_loop; auto. intros i [m p] Hi Hg Hsame.
  pose proof Hsame as [(Ew & Er & Ec) _]. simpl in Ew, Er, Ec.
  destruct (toss_get nf ct1 i H1 Hi) as (v1 & -> & _ & T1).
  destruct (toss_get nf ct2 i H2 Hi) as (v2 & -> & _ & T2). cbn [obind].
  rewrite (bits_get nf X i) by done. cbn [obind]. rewrite <- T1, <- T2.
  replace (v1 =? 0) with (negb (toss ct1 i)) by (rewrite T1; apply negb_involutive).
  replace (v2 =? 0) with (negb (toss ct2 i)) by (rewrite T2; apply negb_involutive).
  destruct (bv_bit 64 X i) eqn:Ex.
  - (* feature is 1 *)
    assert (exists s2, (if boost || negb (toss ct1 i) then
        let* st := nm_get m (2 * j + 0) i in
        let* m := (if st <? N - 1 then nm_set m (2 * j + 0) i (st + 1) else Ret m) in
        let* st := nm_get m (2 * j + 0) i in
        let* p := (if st =? 0 then bm_flip 64 p (2 * j + 0) i else Ret p) in
        Ret (m, p) else Ret (m, p)) = Ret s2 /\
      bupd (at_cell (2 * j) i (if boost || negb (toss ct1 i) then incf_any N else (fun v => v))) (m, p) s2) as (s2 & E & U).
    { rewrite Nat.add_0_r. destruct (boost || negb (toss ct1 i)).
      - apply (bw_inc_any_spec (m, p)); simpl; auto; try lia. by rewrite Ew.
      - eexists. split; [done|]. eapply bupd_ext; [by apply bupd_refl| |done]. intros. unfold at_cell. by destruct (_ && _). }
    cbn beta iota zeta in E |- *. rewrite E. cbn [obind]. clear E. destruct s2 as [m2 p2].
    pose proof U as (Hg2 & [(Ew2 & Er2 & Ec2) _] & _). simpl in Ew2, Er2, Ec2.
    assert (exists s3, (if toss ct2 i then bw_dec_cell N (2 * j + 1) i m2 p2 else Ret (m2, p2)) = Ret s3 /\
      bupd (at_cell (2 * j + 1) i (if toss ct2 i then decf N else (fun v => v))) (m2, p2) s3) as (s3 & E & U3).
    { destruct (toss ct2 i).
      - apply (bw_dec_cell_spec (m2, p2)); simpl; auto; try lia. by rewrite Ew2, Ew.
      - eexists. split; [done|]. eapply bupd_ext; [by apply bupd_refl| |done]. intros. unfold at_cell. by destruct (_ && _). }
    exists s3. split; [done|]. eapply bupd_ext; [eapply bupd_trans; [exact U|exact U3]| |done].
    intros r c v Hr Hcc Hin Ev. cbn beta. rewrite <- at_cell_fuse. destruct (Nat.eqb_spec c i) as [->|]; [|done].
    unfold on_clause, b2_pos, b2_neg. rewrite Ex. destruct (Nat.eqb r (2 * j)), (Nat.eqb r (2 * j + 1)), (toss ct1 i), (toss ct2 i), boost; done.
  - (* feature is 0 *)
    assert (exists s2, (if boost || negb (toss ct2 i) then
        let* st := nm_get m (2 * j + 1) i in
        if st <? N - 1 then
          let* m := nm_set m (2 * j + 1) i (st + 1) in
          let* st := nm_get m (2 * j + 1) i in
          let* p := (if st =? 0 then bm_flip 64 p (2 * j + 1) i else Ret p) in
          Ret (m, p) else Ret (m, p) else Ret (m, p)) = Ret s2 /\
      bupd (at_cell (2 * j + 1) i (if boost || negb (toss ct2 i) then incf N else (fun v => v))) (m, p) s2) as (s2 & E & U).
    { destruct (boost || negb (toss ct2 i)).
      - apply (bw_inc_spec (m, p)); simpl; auto; try lia. by rewrite Ew.
      - eexists. split; [done|]. eapply bupd_ext; [by apply bupd_refl| |done]. intros. unfold at_cell. by destruct (_ && _). }
    cbn beta iota zeta in E |- *. rewrite E. cbn [obind]. clear E. destruct s2 as [m2 p2].
    pose proof U as (Hg2 & [(Ew2 & Er2 & Ec2) _] & _). simpl in Ew2, Er2, Ec2.
    assert (exists s3, (if toss ct1 i then bw_dec_cell N (2 * j + 0) i m2 p2 else Ret (m2, p2)) = Ret s3 /\
      bupd (at_cell (2 * j) i (if toss ct1 i then decf N else (fun v => v))) (m2, p2) s3) as (s3 & E & U3).
    { rewrite Nat.add_0_r. destruct (toss ct1 i).
      - apply (bw_dec_cell_spec (m2, p2)); simpl; auto; try lia. by rewrite Ew2, Ew.
      - eexists. split; [done|]. eapply bupd_ext; [by apply bupd_refl| |done]. intros. unfold at_cell. by destruct (_ && _). }
    exists s3. split; [done|]. eapply bupd_ext; [eapply bupd_trans; [exact U|exact U3]| |done].
    intros r c v Hr Hcc Hin Ev. cbn beta.
    unfold on_clause, at_cell, b2_pos, b2_neg. destruct (Nat.eqb_spec c i) as [->|]; [|by rewrite !andb_false_r].
    rewrite !andb_true_r, Ex.
    destruct (Nat.eqb_spec r (2 * j)) as [->|].
    + rewrite (proj2 (Nat.eqb_neq (2 * j) (2 * j + 1))) by lia. by destruct (toss ct1 i).
    + destruct (Nat.eqb_spec r (2 * j + 1)); [|done]. by destruct (boost || negb (toss ct2 i)).
Qed.

(** Type II *)
Definition b3f (w : Z) (lit : bool) (v : Z * bool) : Z * bool :=
  let inc := negb lit && negb v.2 in
  let st := wrap_s w (v.1 + b2z inc) in
  (st, xorb v.2 ((st =? 0) && inc)).

Lemma N_of_b2z_land b : Z.of_N (N.land b 1) = b2z (N.testbit b 0).
Proof.
  change 1%N with (N.ones 1). rewrite N.land_ones. change (2 ^ 1)%N with 2%N.
  rewrite <- N.bit0_mod. by destruct (N.testbit b 0).
Qed.

Section Block3.
  Context (j k bits : nat) (X : bit_vector) (s : mp).
  Hypothesis (Hs : bgood s) (Hj : (2 * j + 1 < nm_rows s.1)%nat)
             (Hbits : (k * 64 + bits <= nm_cols s.1)%nat) (Hb64 : (bits <= 64)%nat).

  (** effect of the inner loop on the automata *)
  Definition b3n (pi ni : N) (i : nat) (r c : nat) (v : Z) : Z :=
    if Nat.leb (k * 64) c && Nat.ltb c (k * 64 + i) then
      if Nat.eqb r (2 * j) then wrap_s (nm_w s.1) (v + b2z (N.testbit pi (N.of_nat (c - k * 64))))
      else if Nat.eqb r (2 * j + 1) then wrap_s (nm_w s.1) (v + b2z (N.testbit ni (N.of_nat (c - k * 64))))
      else v
    else v.
  Definition flipped (row : nat) (inc : N) (b : nat) : bool :=
    (wrap_s (nm_w s.1) (nm_cell s.1 row (k * 64 + b) + b2z (N.testbit inc (N.of_nat b))) =? 0) && N.testbit inc (N.of_nat b).
  Definition flip_word (row : nat) (inc : N) (i : nat) (w : N) : Prop :=
    forall b, N.testbit w b = N.ltb b (N.of_nat i) && flipped row inc (N.to_nat b).

  Lemma flip_word_step row inc i w (st : Z) :
    flip_word row inc i w ->
    st = wrap_s (nm_w s.1) (nm_cell s.1 row (k * 64 + i) + b2z (N.testbit inc (N.of_nat i))) ->
    flip_word row inc (i + 1)
      (N.lor w (N.shiftl (N.land (if st =? 0 then 1%N else 0%N) (N.land (N.shiftr inc (N.of_nat i)) 1)) (N.of_nat i))).
  Proof.
    intros Hw Hst b. rewrite N.lor_spec, Hw.
    assert (N.land (if st =? 0 then 1%N else 0%N) (N.land (N.shiftr inc (N.of_nat i)) 1)
            = if flipped row inc i then 1%N else 0%N) as ->.
    { unfold flipped. rewrite <- Hst.
      assert (N.land (N.shiftr inc (N.of_nat i)) 1 = if N.testbit inc (N.of_nat i) then 1%N else 0%N) as ->.
      { rewrite <- (N.add_0_l (N.of_nat i)) at 2. rewrite <- N.shiftr_spec' at 1.
        change 1%N with (N.ones 1) at 1. rewrite N.land_ones. change (2 ^ 1)%N with 2%N.
        rewrite <- N.bit0_mod. by destruct (N.testbit _ 0). }
      by destruct (st =? 0), (N.testbit inc (N.of_nat i)). }
    destruct (N.lt_trichotomy b (N.of_nat i)) as [Hlt|[->|Hgt]].
    - rewrite (proj2 (N.ltb_lt b (N.of_nat i))) by done. rewrite (proj2 (N.ltb_lt b (N.of_nat (i + 1)))) by lia.
      rewrite N.shiftl_spec_low by done. by rewrite orb_false_r.
    - rewrite (proj2 (N.ltb_ge (N.of_nat i) (N.of_nat i))) by lia. rewrite (proj2 (N.ltb_lt _ (N.of_nat (i + 1)))) by lia.
      rewrite N.shiftl_spec_high' by lia. rewrite N.sub_diag, Nat2N.id. by destruct (flipped row inc i).
    - rewrite (proj2 (N.ltb_ge b (N.of_nat i))) by lia. rewrite (proj2 (N.ltb_ge b (N.of_nat (i + 1)))) by lia.
      rewrite N.shiftl_spec_high' by lia. destruct (flipped row inc i); [|by rewrite N.bits_0].
      destruct (b - N.of_nat i)%N eqn:Ed; [lia|done].
  Qed.

  Lemma block3_bits_spec pi ni :
    exists m' pi' ni' pf nf',
      block3_bits j k bits s.1 pi ni = Ret (m', pi', ni', pf, nf') /\
      nupd (b3n pi ni bits) s.1 m' /\ flip_word (2 * j) pi bits pf /\ flip_word (2 * j + 1) ni bits nf'.
  Proof.
    unfold block3_bits. destruct Hs as (Hn & _).
    edestruct (ofor_inv (fun i '(m, a, b, pf, nf') =>
        nupd (b3n pi ni i) s.1 m /\ a = N.shiftr pi (N.of_nat i) /\ b = N.shiftr ni (N.of_nat i) /\
        flip_word (2 * j) pi i pf /\ flip_word (2 * j + 1) ni i nf') 0 bits) as ([[[[m' a] b] pf] nf'] & E & H).
    3: { exists m', a, b, pf, nf'. split; [exact E|]. destruct H as (U & _ & _ & F1 & F2). auto. }
    - split_and!.
      + eapply nupd_ext; [by apply nupd_refl| |done]. intros. unfold b3n.
        destruct (Nat.leb_spec (k * 64) c), (Nat.ltb_spec c (k * 64 + 0)); simpl; try done; lia.
      + by rewrite N.shiftr_0_r.
      + by rewrite N.shiftr_0_r.
      + intros b. rewrite N.bits_0. by rewrite (proj2 (N.ltb_ge b (N.of_nat 0))) by lia.
      + intros b. rewrite N.bits_0. by rewrite (proj2 (N.ltb_ge b (N.of_nat 0))) by lia.
    - intros i [[[[m a] b] pf] nf'] Hi (U & -> & -> & F1 & F2). cbn beta iota zeta.
      pose proof U as (Hg & (Ew & Er & Ec) & Hcell).
      rewrite Nat.add_0_r. set (c := (k * 64 + i)%nat).
      rewrite nm_get_good by (auto; lia). cbn [obind].
      assert (nm_cell m (2 * j) c = nm_cell s.1 (2 * j) c) as C1.
      { rewrite Hcell by lia. unfold b3n. rewrite (proj2 (Nat.ltb_ge c (k * 64 + i))) by lia. by rewrite andb_false_r. }
      assert (nm_cell m (2 * j + 1) c = nm_cell s.1 (2 * j + 1) c) as C2.
      { rewrite Hcell by lia. unfold b3n. rewrite (proj2 (Nat.ltb_ge c (k * 64 + i))) by lia. by rewrite andb_false_r. }
      rewrite !N_of_b2z_land, !N.shiftr_spec', !N.add_0_l, C1.
      destruct (nupd_set m (2 * j) c (nm_cell s.1 (2 * j) c + b2z (N.testbit pi (N.of_nat i))) Hg) as (m2 & -> & U2); [lia|lia|].
      cbn [obind]. pose proof U2 as (Hg2 & (Ew2 & Er2 & Ec2) & Hcell2).
      rewrite nm_get_good by (auto; lia). cbn [obind].
      assert (nm_cell m2 (2 * j + 1) c = nm_cell s.1 (2 * j + 1) c) as C3.
      { rewrite Hcell2 by lia. unfold at_cell. rewrite (proj2 (Nat.eqb_neq (2 * j + 1) (2 * j))) by lia. done. }
      rewrite C3.
      destruct (nupd_set m2 (2 * j + 1) c (nm_cell s.1 (2 * j + 1) c + b2z (N.testbit ni (N.of_nat i))) Hg2) as (m3 & -> & U3); [lia|lia|].
      cbn [obind]. pose proof U3 as (Hg3 & (Ew3 & Er3 & Ec3) & Hcell3).
      rewrite !nm_get_good by (auto; lia). cbn [obind].
      assert (nm_cell m3 (2 * j) c = wrap_s (nm_w s.1) (nm_cell s.1 (2 * j) c + b2z (N.testbit pi (N.of_nat i)))) as D1.
      { rewrite Hcell3 by lia. unfold at_cell. rewrite (proj2 (Nat.eqb_neq (2 * j) (2 * j + 1))) by lia. cbn [andb].
        rewrite Hcell2 by lia. unfold at_cell. rewrite !Nat.eqb_refl. cbn [andb]. by rewrite Ew. }
      assert (nm_cell m3 (2 * j + 1) c = wrap_s (nm_w s.1) (nm_cell s.1 (2 * j + 1) c + b2z (N.testbit ni (N.of_nat i)))) as D2.
      { rewrite Hcell3 by lia. unfold at_cell. rewrite !Nat.eqb_refl. cbn [andb]. by rewrite Ew2, Ew. }
      eexists. split; [done|]. split_and!.
      + eapply nupd_ext; [eapply nupd_trans; [exact U|eapply nupd_trans; [exact U2|exact U3]]| |done].
        intros r c' v Hr Hc' Hin Ev. unfold b3n, at_cell. rewrite Ew2, Ew.
        destruct (Nat.eqb_spec c' c) as [->|Hne].
        * unfold c. rewrite (proj2 (Nat.leb_le (k * 64) _)) by lia.
          rewrite (proj2 (Nat.ltb_ge _ (k * 64 + i))) by lia. rewrite (proj2 (Nat.ltb_lt _ (k * 64 + (i + 1)))) by lia.
          cbn [andb]. replace (k * 64 + i - k * 64)%nat with i by lia. fold c.
          rewrite !andb_true_r. subst v.
          destruct (Nat.eqb_spec r (2 * j)) as [->|];
            [by rewrite (proj2 (Nat.eqb_neq (2 * j) (2 * j + 1))) by lia|].
          destruct (Nat.eqb_spec r (2 * j + 1)) as [->|]; done.
        * rewrite !andb_false_r.
          destruct (Nat.leb_spec (k * 64) c'), (Nat.ltb_spec c' (k * 64 + i)), (Nat.ltb_spec c' (k * 64 + (i + 1))); cbn [andb]; try done; lia.
      + rewrite N.shiftr_shiftr. f_equal. lia.
      + rewrite N.shiftr_shiftr. f_equal. lia.
      + apply flip_word_step; done.
      + apply flip_word_step; done.
  Qed.
End Block3.

Lemma flip_word_ok s k row inc i w : (i <= 64)%nat -> flip_word k s row inc i w -> block_ok 64 w.
Proof. intros Hi H b Hb. rewrite H. by rewrite (proj2 (N.ltb_ge b (N.of_nat i))) by lia. Qed.

Lemma block3_process_spec j X k bits s nf :
  bgood s -> (2 * j + 1 < nm_rows s.1)%nat -> nm_cols s.1 = nf -> bits_ok nf X ->
  (k * 64 + bits <= nf)%nat -> (0 < bits <= 64)%nat ->
  exists s', block3_process j X k bits s = Ret s' /\
    bupd (fun r c v => if Nat.leb (k * 64) c && Nat.ltb c (k * 64 + bits)
                       then on_clause j (fun c => b3f (nm_w s.1) (bv_bit 64 X c))
                                        (fun c => b3f (nm_w s.1) (negb (bv_bit 64 X c))) r c v
                       else v) s s'.
Proof.
  intros Hs Hj Hc HX Hb Hb64. destruct s as [m p]. unfold block3_process.
  pose proof HX as (El & (Hl & Ho) & _). pose proof Hs as (Hn & Hp & Ep & Epc). simpl in Ep, Epc, Hc, Hj.
  assert (k < blocks_for 64 nf)%nat as Hk.
  { unfold blocks_for. apply Nat.div_le_lower_bound; lia. }
  destruct (vget_ret_lt (bv_blocks X) k) as (x & Ex & ->). { by rewrite Hl, El. }
  cbn [obind].
  assert (k < bm_row_blocks p)%nat as Hkr. { destruct Hp as (Hp1 & _). simpl in Hp1. nia. }
  destruct (bm_block_spec 64 p (2 * j + 0) k) as (pp & E1 & O1 & T1); [lia|done|lia|done|].
  destruct (bm_block_spec 64 p (2 * j + 1) k) as (pn & E2 & O2 & T2); [lia|done|lia|done|].
  rewrite E1, E2. cbn [obind]. rewrite Nat.add_0_r in *.
  set (pi := N.land (bnot 64 x) (bnot 64 pp)). set (ni := N.land x (bnot 64 pn)).
  destruct (block3_bits_spec j k bits (m, p) Hs ltac:(simpl; lia) ltac:(simpl; lia) ltac:(lia) pi ni)
    as (m' & pi' & ni' & pf & nfl & E3 & U & F1 & F2). cbn [fst snd] in E3. rewrite E3. cbn [obind].
  destruct (bm_set_block_spec 64 p (2 * j) k (N.lxor pp pf)) as (p2 & -> & Hp2 & (S1 & S2 & S3) & B2); [lia|done|lia|done| |].
  { apply block_ok_lxor; [done|]. eapply flip_word_ok; [|exact F1]. lia. }
  cbn [obind].
  destruct (bm_block_spec 64 p2 (2 * j + 1) k) as (pn' & E2' & O2' & T2'); [lia|done|lia|lia|].
  assert (pn' = pn) as ->.
  { apply N.bits_inj. intros b. destruct (N.lt_ge_cases b 64) as [Hb'|Hb']; [|by rewrite O2, O2'].
    rewrite <- (N2Nat.id b). rewrite T2, T2' by lia. rewrite B2 by nia.
    by rewrite (proj2 (Nat.eqb_neq (2 * j + 1) (2 * j))) by lia. }
  rewrite E2'. cbn [obind].
  destruct (bm_set_block_spec 64 p2 (2 * j + 1) k (N.lxor pn nfl)) as (p3 & -> & Hp3 & (S4 & S5 & S6) & B3); [lia|done|lia|lia| |].
  { apply block_ok_lxor; [done|]. eapply flip_word_ok; [|exact F2]. lia. }
  cbn [obind]. exists (m', p3). split; [done|].
  pose proof U as (Hg & (Ew & Er & Ec) & Hcell).
  assert (forall i, (i < 64)%nat -> N.testbit x (N.of_nat i) = bv_bit 64 X (k * 64 + i)) as Tx.
  { intros i Hi. unfold bv_bit. rewrite Nat.div_add_l, (Nat.div_small i), Nat.add_0_r, Ex by lia.
    rewrite Nat.add_comm, Nat.mod_add, Nat.mod_small by lia. done. }
  assert (forall r c, (r < nm_rows m)%nat -> (c < bm_row_blocks p * 64)%nat ->
    bm_bit 64 p3 r c = if Nat.leb (k * 64) c && Nat.ltb c (k * 64 + bits) then
      (if Nat.eqb r (2 * j) then xorb (bm_bit 64 p r c) (flipped k (m, p) (2 * j) pi (c - k * 64))
       else if Nat.eqb r (2 * j + 1) then xorb (bm_bit 64 p r c) (flipped k (m, p) (2 * j + 1) ni (c - k * 64))
       else bm_bit 64 p r c) else bm_bit 64 p r c) as HB.
  { intros r c Hr Hcc. rewrite B3 by (rewrite S3; lia). rewrite B2 by lia.
    assert (forall row inc w pw, flip_word k (m, p) row inc bits w ->
       (forall i, (i < 64)%nat -> N.testbit pw (N.of_nat i) = bm_bit 64 p row (k * 64 + i)) -> (c / 64 = k)%nat ->
       N.testbit (N.lxor pw w) (N.of_nat (c mod 64)%nat) =
       if Nat.leb (k * 64) c && Nat.ltb c (k * 64 + bits)
       then xorb (bm_bit 64 p row c) (flipped k (m, p) row inc (c - k * 64)) else bm_bit 64 p row c) as HF.
    { intros row inc w pw Fw Tp Ek. pose proof (Nat.div_mod c 64 ltac:(lia)) as Hdm.
      pose proof (Nat.mod_upper_bound c 64 ltac:(lia)). rewrite Ek in Hdm.
      rewrite N.lxor_spec, Tp, Fw by lia. replace (k * 64 + c mod 64)%nat with c by lia.
      rewrite Nat2N.id. replace (c - k * 64)%nat with (c mod 64)%nat by lia.
      rewrite (proj2 (Nat.leb_le (k * 64) c)) by lia. cbn [andb].
      destruct (Nat.ltb_spec c (k * 64 + bits)).
      - by rewrite (proj2 (N.ltb_lt (N.of_nat (c mod 64)%nat) (N.of_nat bits))) by lia.
      - rewrite (proj2 (N.ltb_ge (N.of_nat (c mod 64)%nat) (N.of_nat bits))) by lia. apply xorb_false_r. }
    destruct (Nat.eqb_spec (c / 64)%nat k) as [Ek|Ek].
    - rewrite !andb_true_r.
      destruct (Nat.eqb_spec r (2 * j + 1)) as [->|Hr1].
      + rewrite (proj2 (Nat.eqb_neq (2 * j + 1) (2 * j))) by lia. by rewrite (HF (2 * j + 1)%nat ni nfl pn F2 T2 Ek).
      + destruct (Nat.eqb_spec r (2 * j)) as [->|Hr2].
        * by rewrite (HF (2 * j)%nat pi pf pp F1 T1 Ek).
        * by destruct (_ && _).
    - rewrite !andb_false_r.
      destruct (Nat.leb_spec (k * 64) c); [|done]. destruct (Nat.ltb_spec c (k * 64 + bits)); [|done].
      exfalso. apply Ek. symmetry. apply (Nat.div_unique c 64 k (c - k * 64)); lia. }
  split; [|split; [|split]].
  - cbn [fst snd] in *; split_and!; simpl; auto; congruence.
  - cbn [fst snd] in *; repeat split; simpl; auto; congruence.
  - intros r c Hr Hcc. unfold jv. cbn [fst snd] in *. rewrite Hcell by done. rewrite HB; [|done|destruct Hp as (? & _); lia].
    unfold b3n. cbn [fst snd].
    destruct (Nat.leb_spec (k * 64) c) as [H1|H1]; [|done]. destruct (Nat.ltb_spec c (k * 64 + bits)) as [H2|H2]; [|done].
    cbn [andb]. unfold on_clause, b3f, flipped. cbn [fst snd].
    replace (k * 64 + (c - k * 64))%nat with c by lia.
    destruct (Nat.eqb_spec r (2 * j)) as [->|].
    + assert (N.testbit pi (N.of_nat (c - k * 64)) = negb (bv_bit 64 X c) && negb (bm_bit 64 p (2 * j) c)) as ->; [|done].
      unfold pi. rewrite N.land_spec, !testbit_bnot, Tx, T1 by lia. by replace (k * 64 + (c - k * 64))%nat with c by lia.
    + destruct (Nat.eqb_spec r (2 * j + 1)) as [->|]; [|done].
      assert (N.testbit ni (N.of_nat (c - k * 64)) = negb (negb (bv_bit 64 X c)) && negb (bm_bit 64 p (2 * j + 1) c)) as ->; [|done].
      unfold ni. rewrite N.land_spec, testbit_bnot, Tx, T2 by lia.
      replace (k * 64 + (c - k * 64))%nat with c by lia. by rewrite negb_involutive.
  - cbn [fst snd] in *. intros r c Hr Hcc. rewrite HB by lia. rewrite (proj2 (Nat.ltb_ge c (k * 64 + bits))) by lia.
    by rewrite andb_false_r.
Qed.

Lemma bw_block3_spec j nf X s :
  bgood s -> (2 * j + 1 < nm_rows s.1)%nat -> nm_cols s.1 = nf -> bits_ok nf X ->
  exists s', bw_block3 j X s = Ret s' /\
    bupd (on_clause j (fun c => b3f (nm_w s.1) (bv_bit 64 X c))
                      (fun c => b3f (nm_w s.1) (negb (bv_bit 64 X c)))) s s'.
Proof.
  intros Hs Hj Hc HX. unfold bw_block3, bv_tail_bits, bv_content_blocks. pose proof HX as (El & _). rewrite El.
  set (tail := (nf mod 64)%nat). set (full := (blocks_for 64 nf - (if Nat.eqb tail 0 then 0 else 1))%nat).
  set (F := on_clause j (fun c => b3f (nm_w s.1) (bv_bit 64 X c)) (fun c => b3f (nm_w s.1) (negb (bv_bit 64 X c)))).
  assert (nf = full * 64 + tail)%nat as Enf.
  { pose proof (Nat.div_mod nf 64 ltac:(lia)) as Hdm. fold tail in Hdm.
    assert (full = nf / 64)%nat as ->; [|lia]. unfold full, blocks_for.
    destruct (Nat.eqb_spec tail 0) as [E|E].
    - rewrite Nat.sub_0_r. symmetry. apply (Nat.div_unique _ 64 _ 63); lia.
    - pose proof (Nat.mod_upper_bound nf 64 ltac:(lia)). fold tail in H.
      assert ((nf + 64 - 1) / 64 = nf / 64 + 1)%nat; [|lia].
      symmetry. apply (Nat.div_unique _ 64 _ (tail - 1)); lia. }
  destruct (ofor_inv (fun k s1 => bupd (fun r c v => if Nat.ltb c (k * 64) then F r c v else v) s s1) 0 full s
    (fun k mp => block3_process j X k 64 mp)) as (s1 & -> & U).
  - eapply bupd_ext; [by apply bupd_refl| |done]. done.
  - intros k s1 Hk U. pose proof U as (Hg & [(Ew & Er & Ec) _] & _).
    destruct (block3_process_spec j X k 64 s1 nf) as (s2 & -> & U2); [done|lia|lia|done|nia|lia|].
    exists s2. split; [done|]. eapply bupd_ext; [eapply bupd_trans; [exact U|exact U2]| |done].
    intros r c v Hr Hcc _ _. cbn beta. fold F. rewrite Ew. fold F.
    destruct (Nat.ltb_spec c (k * 64)), (Nat.leb_spec (k * 64) c), (Nat.ltb_spec c (k * 64 + 64)),
      (Nat.ltb_spec c ((k + 1) * 64)); cbn [andb]; try lia; done.
  - cbn [obind]. destruct (Nat.eqb_spec tail 0) as [E|E].
    + exists s1. split; [done|]. eapply bupd_ext; [exact U| |done]. intros r c v Hr Hcc _ _. cbn beta.
      by rewrite (proj2 (Nat.ltb_lt c _)) by lia.
    + pose proof U as (Hg & [(Ew & Er & Ec) _] & _). pose proof (Nat.mod_upper_bound nf 64 ltac:(lia)) as Hm. fold tail in Hm.
      destruct (block3_process_spec j X full tail s1 nf) as (s2 & -> & U2); [done|lia|lia|done|lia|lia|].
      exists s2. split; [done|]. eapply bupd_ext; [eapply bupd_trans; [exact U|exact U2]| |done].
      intros r c v Hr Hcc _ _. cbn beta. rewrite Ew. fold F. cbn [Nat.add].
      destruct (Nat.ltb_spec c (full * 64)), (Nat.leb_spec (full * 64) c), (Nat.ltb_spec c (full * 64 + tail)); cbn [andb]; try lia; done.
Qed.
