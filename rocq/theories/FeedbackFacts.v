(** * Exact effect of the feedback loops on automata and polarity bits. *)
From Verif Require Export Algo Spec Wp.
Local Open Scope Z_scope.

(** ** Effects on numeric matrices *)
Definition in_w (w z : Z) : Prop := - 2 ^ (w - 1) <= z < 2 ^ (w - 1).
(** well formed, and every cell holds a value of its type *)
Definition nm_good (m : nmatrix) : Prop :=
  nm_wf m /\ 0 < nm_w m /\ forall r c, (r < nm_rows m)%nat -> (c < nm_cols m)%nat -> in_w (nm_w m) (nm_cell m r c).
(** [m'] is [m] with every cell mapped by [F] *)
Definition nupd (F : nat -> nat -> Z -> Z) (m m' : nmatrix) : Prop :=
  nm_good m' /\ nm_same_shape m m' /\
  forall r c, (r < nm_rows m)%nat -> (c < nm_cols m)%nat -> nm_cell m' r c = F r c (nm_cell m r c).
Definition at_cell {T} (r0 c0 : nat) (f : T -> T) (r c : nat) (v : T) : T :=
  if Nat.eqb r r0 && Nat.eqb c c0 then f v else v.

Lemma wrap_s_in_w w z : 0 < w -> in_w w (wrap_s w z).
Proof.
  intros Hw. unfold in_w, wrap_s.
  assert (2 ^ w = 2 * 2 ^ (w - 1)) as Ew. { rewrite <- Z.pow_succ_r by lia. f_equal. lia. }
  assert (0 < 2 ^ (w - 1)) by (apply Z.pow_pos_nonneg; lia).
  pose proof (Z.mod_pos_bound (z + 2 ^ (w - 1)) (2 ^ w) ltac:(lia)). lia.
Qed.
Lemma wrap_in_w w z : 0 < w -> in_w w z -> wrap_s w z = z.
Proof. intros. apply wrap_s_id; done. Qed.

Lemma nupd_refl m : nm_good m -> nupd (fun _ _ v => v) m m.
Proof. intros H. split; [done|]. split; [done|]. auto. Qed.
Lemma nupd_ext F G m m' : nupd F m m' ->
  (forall r c v, (r < nm_rows m)%nat -> (c < nm_cols m)%nat -> in_w (nm_w m) v -> v = nm_cell m r c -> F r c v = G r c v) ->
  nm_good m -> nupd G m m'.
Proof.
  intros (H1 & H2 & H3) HE Hm. split; [done|]. split; [done|]. intros r c Hr Hc. rewrite H3 by done.
  apply HE; auto. by apply Hm.
Qed.
Lemma nupd_trans F G m1 m2 m3 : nupd F m1 m2 -> nupd G m2 m3 -> nupd (fun r c v => G r c (F r c v)) m1 m3.
Proof.
  intros (H1 & H2 & H3) (H4 & H5 & H6). split; [done|]. destruct H2 as (E1 & E2 & E3), H5 as (E4 & E5 & E6).
  split; [by split_and!; congruence|]. intros r c Hr Hc. rewrite H6 by congruence. by rewrite H3.
Qed.
Lemma nupd_set m r c v : nm_good m -> (r < nm_rows m)%nat -> (c < nm_cols m)%nat ->
  exists m', nm_set m r c v = Ret m' /\ nupd (at_cell r c (fun _ => wrap_s (nm_w m) v)) m m'.
Proof.
  intros (Hwf & Hw & Hin) Hr Hc. destruct (nm_set_spec m r c v Hwf Hr Hc) as (m' & E & Hwf' & Hs & Hcell).
  exists m'. split; [done|]. pose proof Hs as (E1 & E2 & E3). split; [|split; [done|]].
  - split; [done|]. rewrite E1, E2, E3. split; [done|]. intros r' c' Hr' Hc'. rewrite Hcell by done.
    destruct (_ && _); [by apply wrap_s_in_w|by apply Hin].
  - intros r' c' Hr' Hc'. rewrite Hcell by done. unfold at_cell. done.
Qed.
Lemma nm_get_good m r c : nm_good m -> (r < nm_rows m)%nat -> (c < nm_cols m)%nat -> nm_get m r c = Ret (nm_cell m r c).
Proof. intros (? & _). by apply nm_get_spec. Qed.

Lemma in_w_lower w N : 0 < w -> N <= 2 ^ (w - 1) -> forall st, in_w w st -> - N < st -> in_w w (st - 1).
Proof. unfold in_w. intros. lia. Qed.

(** the effect of a loop over the features of clause [j] done up to [i] *)
Definition upto {T} (j i : nat) (FP FN : nat -> T -> T) (r c : nat) (v : T) : T :=
  if Nat.ltb c i then (if Nat.eqb r (2 * j) then FP c v else if Nat.eqb r (2 * j + 1) then FN c v else v) else v.
Definition on_clause {T} (j : nat) (FP FN : nat -> T -> T) (r c : nat) (v : T) : T :=
  if Nat.eqb r (2 * j) then FP c v else if Nat.eqb r (2 * j + 1) then FN c v else v.

(** generic loop rule *)
Lemma nupd_loop j nf m FP FN body :
  nm_good m -> nm_cols m = nf -> (2 * j + 1 < nm_rows m)%nat ->
  (forall i m1, (i < nf)%nat -> nm_good m1 -> nm_same_shape m m1 ->
     exists m2, body i m1 = Ret m2 /\
       nupd (fun r c v => if Nat.eqb c i then on_clause j FP FN r c v else v) m1 m2) ->
  exists m', ofor 0 nf m body = Ret m' /\ nupd (on_clause j FP FN) m m'.
Proof.
  intros Hm Hc Hj Hstep.
  destruct (ofor_inv (fun i m1 => nupd (upto j i FP FN) m m1) 0 nf m body) as (m' & E & Hn).
  - eapply nupd_ext; [by apply nupd_refl| |done]. intros. unfold upto. done.
  - intros i m1 Hi Hn. pose proof Hn as (Hg & Hs & _).
    destruct (Hstep i m1 ltac:(lia) Hg Hs) as (m2 & E & H2). exists m2. split; [done|].
    eapply nupd_ext; [eapply nupd_trans; [exact Hn|exact H2]| |done].
    intros r c v Hr Hcc Hin Ev. simpl. unfold upto, on_clause.
    destruct (Nat.eqb_spec c i) as [->|Hne].
    + rewrite (proj2 (Nat.ltb_ge i i)) by lia. by rewrite (proj2 (Nat.ltb_lt i (i + 1))) by lia.
    + destruct (Nat.ltb_spec c i), (Nat.ltb_spec c (i + 1)); try lia; done.
  - exists m'. split; [done|]. eapply nupd_ext; [exact Hn| |done].
    intros r c v Hr Hcc _ _. unfold upto, on_clause. by rewrite (proj2 (Nat.ltb_lt c _)) by lia.
Qed.

(** ** Classic *)
Definition toss (ct : list Z) (k : nat) : bool := match ct !! k with Some v => negb (v =? 0) | None => false end.
Definition zo_list (n : nat) (l : list Z) : Prop := length l = n /\ Forall (fun v => v = 0 \/ v = 1) l.

Ltac eqbs := repeat match goal with
  | |- context[Nat.eqb ?a ?b] => destruct (Nat.eqb_spec a b); subst; try lia
  end; simpl; try done.

Lemma toss_get nf ct k : zo_list nf ct -> (k < nf)%nat ->
  exists v, vget ct k = Ret v /\ (v = 0 \/ v = 1) /\ toss ct k = negb (v =? 0).
Proof.
  intros [Hl Hf] Hk. destruct (vget_ret_lt ct k ltac:(lia)) as (v & E & ->). exists v. split; [done|].
  split; [by eapply Forall_lookup_1 in Hf|]. unfold toss. by rewrite E.
Qed.

Lemma block1_spec nf N j ct1 ct2 m :
  nm_good m -> nm_cols m = nf -> (2 * j + 1 < nm_rows m)%nat -> zo_list nf ct1 -> zo_list nf ct2 ->
  1 <= N <= 2 ^ (nm_w m - 1) ->
  exists m', block1 nf N j ct1 ct2 m = Ret m' /\
    nupd (on_clause j (fun k => type1_silent N (toss ct1 k)) (fun k => type1_silent N (toss ct2 k))) m m'.
Proof.
  intros Hm Hc Hj H1 H2 HN. unfold block1. apply nupd_loop; auto.
  intros i m1 Hi Hg Hs. pose proof Hs as (Ew & Er & Ec).
  destruct (toss_get nf ct1 i H1 Hi) as (v1 & -> & Hv1 & T1).
  destruct (toss_get nf ct2 i H2 Hi) as (v2 & -> & Hv2 & T2). simpl.
  rewrite nm_get_good by (auto; lia). simpl.
  destruct (nupd_set m1 (2 * j + 0) i (dec_if N v1 (nm_cell m1 (2 * j + 0) i)) Hg) as (m2 & E2 & U2); [lia|lia|].
  simpl in E2. rewrite E2. simpl.
  pose proof U2 as (Hg2 & (Ew2 & Er2 & Ec2) & Hcell2).
  rewrite nm_get_good by (auto; lia). simpl.
  destruct (nupd_set m2 (2 * j + 1) i (dec_if N v2 (nm_cell m2 (2 * j + 1) i)) Hg2) as (m3 & E3 & U3); [lia|lia|].
  simpl in E3. exists m3. split; [done|].
  eapply nupd_ext; [eapply nupd_trans; [exact U2|exact U3]| |done].
  intros r c v Hr Hcc Hin Ev. unfold at_cell, on_clause.
  assert (forall v0 st, in_w (nm_w m1) st -> wrap_s (nm_w m1) (dec_if N v0 st) = type1_silent N (negb (v0 =? 0)) st) as HD.
  { intros v0 st Hst. destruct Hg as (_ & Hw & _). unfold dec_if, type1_silent, down.
    destruct (negb (v0 =? 0)); [|by apply wrap_in_w].
    destruct (Z.ltb_spec (- N) st); [|by apply wrap_in_w]. apply wrap_in_w; [done|].
    unfold in_w in *. rewrite Ew in *. lia. }
  rewrite Nat.add_0_r in *.
  destruct (Nat.eqb_spec c i) as [->|]; [|by rewrite !andb_false_r]. rewrite !andb_true_r.
  destruct (Nat.eqb_spec r (2 * j)) as [->|].
  - rewrite (proj2 (Nat.eqb_neq (2 * j) (2 * j + 1))) by lia. rewrite <- Ev, HD by done. by rewrite T1.
  - destruct (Nat.eqb_spec r (2 * j + 1)) as [->|]; [|done].
    rewrite Hcell2 by lia. unfold at_cell. rewrite (proj2 (Nat.eqb_neq (2 * j + 1) (2 * j))) by lia. simpl.
    rewrite Ew2, HD by (apply Hg; lia). by rewrite T2, Ev.
Qed.

Ltac zl := repeat match goal with
  | |- context[Z.land ?a ?b] =>
      match a with context[Z.land] => fail 1 | _ => let v := eval compute in (Z.land a b) in change (Z.land a b) with v end
  end; cbn.
Ltac wr := zl; repeat match goal with
  | |- context[wrap_s ?w ?e] =>
      match e with context[wrap_s] => fail 1 | _ => rewrite (wrap_in_w w e) by (first [done | unfold in_w; lia]) end
  end; try done.

Lemma block2_spec boost nf N j X ct1 ct2 m :
  nm_good m -> nm_cols m = nf -> (2 * j + 1 < nm_rows m)%nat -> zo_list nf ct1 -> zo_list nf ct2 -> zo_list nf X ->
  1 <= N <= 2 ^ (nm_w m - 1) ->
  exists m', block2 boost nf N j X ct1 ct2 m = Ret m' /\
    nupd (on_clause j (fun k => type1_fired boost N (dense_bit X k) (toss ct1 k))
                      (fun k => type1_fired boost N (negb (dense_bit X k)) (toss ct2 k))) m m'.
Proof.
  intros Hm Hc Hj H1 H2 HX HN. unfold block2. apply nupd_loop; auto.
  intros i m1 Hi Hg Hs. pose proof Hs as (Ew & Er & Ec).
  destruct (toss_get nf ct1 i H1 Hi) as (v1 & -> & Hv1 & T1).
  destruct (toss_get nf ct2 i H2 Hi) as (v2 & -> & Hv2 & T2).
  destruct (toss_get nf X i HX Hi) as (x & -> & Hx & Tx). cbn [obind].
  change (toss X i) with (dense_bit X i) in Tx.
  rewrite Nat.add_0_r. rewrite !(nm_get_good m1) by (auto; lia). cbn [obind].
  set (p0 := nm_cell m1 (2 * j) i). set (n0 := nm_cell m1 (2 * j + 1) i).
  match goal with |- context[nm_set m1 (2 * j) i ?v] =>
    destruct (nupd_set m1 (2 * j) i v Hg) as (m2 & E2 & U2); [lia|lia|] end.
  rewrite E2. cbn [obind]. clear E2.
  pose proof U2 as (Hg2 & (Ew2 & Er2 & Ec2) & Hcell2).
  rewrite !(nm_get_good m2) by (auto; lia). cbn [obind].
  assert (nm_cell m2 (2 * j + 1) i = n0) as En2.
  { rewrite Hcell2 by lia. unfold at_cell. by rewrite (proj2 (Nat.eqb_neq (2 * j + 1) (2 * j))) by lia. }
  rewrite En2.
  match goal with |- context[nm_set m2 (2 * j + 1) i ?v] =>
    destruct (nupd_set m2 (2 * j + 1) i v Hg2) as (m3 & E3 & U3); [lia|lia|] end.
  rewrite E3. cbn [obind]. clear E3.
  pose proof U3 as (Hg3 & (Ew3 & Er3 & Ec3) & Hcell3).
  rewrite !(nm_get_good m3) by (auto; lia). cbn [obind].
  match goal with |- context[nm_set m3 (2 * j) i ?v] =>
    destruct (nupd_set m3 (2 * j) i v Hg3) as (m4 & E4 & U4); [lia|lia|] end.
  rewrite E4. cbn [obind]. clear E4.
  pose proof U4 as (Hg4 & (Ew4 & Er4 & Ec4) & Hcell4).
  rewrite !(nm_get_good m4) by (auto; lia). cbn [obind].
  match goal with |- context[nm_set m4 (2 * j + 1) i ?v] =>
    destruct (nupd_set m4 (2 * j + 1) i v Hg4) as (m5 & E5 & U5); [lia|lia|] end.
  exists m5. split; [done|]. clear E5.
  assert (0 < nm_w m1) as Hw by apply Hg.
  assert (in_w (nm_w m1) p0) as Hp0 by (apply Hg; lia).
  assert (in_w (nm_w m1) n0) as Hn0 by (apply Hg; lia).
  assert (2 * j <> 2 * j + 1)%nat as Hne by lia.
  rewrite (Hcell4 (2 * j + 1)%nat i) in U5 by lia. rewrite (Hcell3 (2 * j + 1)%nat i) in U5 by lia.
  rewrite (Hcell3 (2 * j)%nat i) in U4 by lia. rewrite (Hcell2 (2 * j)%nat i) in U4 by lia.
  unfold at_cell in U4, U5. rewrite !Nat.eqb_refl in U4, U5. cbn [andb] in U4, U5.
  rewrite (proj2 (Nat.eqb_neq (2 * j) (2 * j + 1))) in U4 by lia.
  rewrite (proj2 (Nat.eqb_neq (2 * j + 1) (2 * j))) in U5 by lia. cbn [andb] in U4, U5.
  eapply nupd_ext; [eapply nupd_trans; [eapply nupd_trans; [eapply nupd_trans; [exact U2|exact U3]|exact U4]|exact U5]| |done].
  clear U2 U3 U4 U5 Hcell2 Hcell3 Hcell4 En2.
  intros r c v Hr Hcc Hin Ev. unfold at_cell, on_clause. rewrite Ew4, Ew3, Ew2.
  destruct (Nat.eqb_spec c i) as [->|]; [|by rewrite !andb_false_r]. rewrite !andb_true_r.
  rewrite <- Ew in HN. unfold in_w in Hp0, Hn0.
  destruct (Nat.eqb_spec r (2 * j)) as [->|].
  - rewrite (proj2 (Nat.eqb_neq (2 * j) (2 * j + 1))) by lia. rewrite T1, Tx. fold p0 in Ev. subst v.
    unfold type1_fired, up, down.
    destruct Hx as [-> | ->], Hv1 as [-> | ->], boost; cbn;
      destruct (Z.ltb_spec p0 (N - 1)); destruct (Z.ltb_spec (- N) p0); cbn; wr.
  - destruct (Nat.eqb_spec r (2 * j + 1)) as [->|]; [|done].
    rewrite T2, Tx. fold n0 in Ev. subst v.
    unfold type1_fired, up, down.
    destruct Hx as [-> | ->], Hv2 as [-> | ->], boost; cbn;
      destruct (Z.ltb_spec n0 (N - 1)); destruct (Z.ltb_spec (- N) n0); cbn; wr.
Qed.

Lemma block3_spec nf j X m :
  nm_good m -> nm_cols m = nf -> (2 * j + 1 < nm_rows m)%nat -> zo_list nf X ->
  exists m', block3 nf j X m = Ret m' /\
    nupd (on_clause j (fun k => type2 (dense_bit X k)) (fun k => type2 (negb (dense_bit X k)))) m m'.
Proof.
  intros Hm Hc Hj HX. unfold block3. apply nupd_loop; auto.
  intros i m1 Hi Hg Hs. pose proof Hs as (Ew & Er & Ec).
  destruct (toss_get nf X i HX Hi) as (x & -> & Hx & Tx). cbn [obind].
  change (toss X i) with (dense_bit X i) in Tx.
  rewrite Nat.add_0_r. rewrite !(nm_get_good m1) by (auto; lia). cbn [obind].
  set (p0 := nm_cell m1 (2 * j) i). set (n0 := nm_cell m1 (2 * j + 1) i).
  match goal with |- context[nm_set m1 (2 * j) i ?v] =>
    destruct (nupd_set m1 (2 * j) i v Hg) as (m2 & E2 & U2); [lia|lia|] end.
  rewrite E2. cbn [obind]. clear E2.
  pose proof U2 as (Hg2 & (Ew2 & Er2 & Ec2) & Hcell2).
  rewrite !(nm_get_good m2) by (auto; lia). cbn [obind].
  assert (nm_cell m2 (2 * j + 1) i = n0) as En2.
  { rewrite Hcell2 by lia. unfold at_cell. by rewrite (proj2 (Nat.eqb_neq (2 * j + 1) (2 * j))) by lia. }
  rewrite En2.
  match goal with |- context[nm_set m2 (2 * j + 1) i ?v] =>
    destruct (nupd_set m2 (2 * j + 1) i v Hg2) as (m3 & E3 & U3); [lia|lia|] end.
  exists m3. split; [done|]. clear E3.
  assert (0 < nm_w m1) as Hw by apply Hg.
  assert (in_w (nm_w m1) p0) as Hp0 by (apply Hg; lia).
  assert (in_w (nm_w m1) n0) as Hn0 by (apply Hg; lia).
  assert (0 < 2 ^ (nm_w m1 - 1)) by (apply Z.pow_pos_nonneg; lia).
  assert (forall st, in_w (nm_w m1) st -> st < 0 -> wrap_s (nm_w m1) (st + 1) = st + 1) as Hinc.
  { intros st Hst ?. apply wrap_in_w; [done|]. unfold in_w in *. lia. }
  assert (forall st, in_w (nm_w m1) st -> wrap_s (nm_w m1) st = st) as Hid by (intros; by apply wrap_in_w).
  eapply nupd_ext; [eapply nupd_trans; [exact U2|exact U3]| |done].
  intros r c v Hr Hcc Hin Ev. unfold at_cell, on_clause. rewrite Ew2.
  destruct (Nat.eqb_spec c i) as [->|]; [|by rewrite !andb_false_r]. rewrite !andb_true_r.
  destruct (Nat.eqb_spec r (2 * j)) as [->|].
  - rewrite (proj2 (Nat.eqb_neq (2 * j) (2 * j + 1))) by lia. rewrite Tx. fold p0 in Ev. subst v.
    unfold type2. destruct Hx as [-> | ->]; cbn; destruct (Z.ltb_spec p0 0); cbn; zl; rewrite ?Hinc, ?Hid by done; done.
  - destruct (Nat.eqb_spec r (2 * j + 1)) as [->|]; [|done]. rewrite Tx. fold n0 in Ev. subst v.
    unfold type2. destruct Hx as [-> | ->]; cbn; destruct (Z.ltb_spec n0 0); cbn; zl; rewrite ?Hinc, ?Hid by done; done.
Qed.
