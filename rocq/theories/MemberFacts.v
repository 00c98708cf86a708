(** * What the member functions of the containers do to the elements (C66) *)
From Verif Require Import Base Containers ContainersFacts Values.
From stdpp Require Import list.
Local Open Scope nat_scope.

(** the values of a container made with arguments [a] and changed by calls of member functions with arguments allowed by [ok] *)
Inductive value_of {H C Args Op Res} (K : container H C Args Op Res) (ok : Op -> Prop) (a : Args) : H -> list C -> Prop :=
| value_made h d : make K a = (h, d) -> value_of K ok a h d
| value_changed h d o r d' : value_of K ok a h d -> ok o -> member K h d o = Ret (r, d') -> value_of K ok a h d'.
(** positions inside the container *)
Definition nm_inside (rows cols : nat) (o : nm_op) : Prop := match o with NShape => True | NGet r c | NPut r c _ => r < rows /\ c < cols end.
Definition bm_inside (rows cols : nat) (o : bm_op) : Prop :=
  match o with BShape => True | BTest r c | BSet r c | BClear r c | BFlip r c => r < rows /\ c < cols end.
Definition bv_inside (n : nat) (o : bv_op) : Prop :=
  match o with VSize => True | VTest i | VSet i | VClear i | VFlip i | VPut i _ | VXor i _ => i < n end.

Lemma nm_value_wf w rows cols h d : nm_fits w rows cols -> value_of (nm_container w) (nm_inside rows cols) (Some (rows, cols)) h d ->
  h = (rows, cols) /\ nm_wf (NM w rows cols d).
Proof.
  intros Hf. induction 1 as [h d E|h d o r d' _ [-> IH] Ho E].
  - cbn [make nm_container] in E. unfold nm_make in E. destruct (nm_new_wf w rows cols Hf) as (Hw & E1 & E2 & E3 & _).
    rewrite E1, E2 in E. destruct (nm_new w rows cols) as [w' r' c' d']. cbn in E, E1, E2, E3. injection E as <- <-. by subst.
  - split; [done|]. cbn [member nm_container] in E. destruct o as [|r0 c0|r0 c0 v]; cbn [nm_member fst snd] in E.
    + by injection E as _ <-.
    + destruct (nm_get _ _ _); try done. by injection E as _ <-.
    + destruct Ho as [Hr Hc]. destruct (nm_set_spec (NM w rows cols d) r0 c0 v IH Hr Hc) as (m' & Em & Hw & (S1 & S2 & S3) & _).
      rewrite Em in E. injection E as _ <-. destruct m' as [w' r' c' e]. cbn in S1, S2, S3 |- *. by subst.
Qed.
Lemma nm_members w rows cols h d : nm_fits w rows cols -> value_of (nm_container w) (nm_inside rows cols) (Some (rows, cols)) h d ->
  exists cell : nat -> nat -> Z,
    member (nm_container w) h d NShape = Ret (NRShape rows cols, d) /\
    (forall r c, r < rows -> c < cols -> member (nm_container w) h d (NGet r c) = Ret (NRValue (cell r c), d)) /\
    forall r c v, r < rows -> c < cols -> exists d', member (nm_container w) h d (NPut r c v) = Ret (NRDone, d') /\
      forall r' c', r' < rows -> c' < cols -> member (nm_container w) h d' (NGet r' c') =
        Ret (NRValue (if Nat.eqb r' r && Nat.eqb c' c then wrap_s w v else cell r' c'), d').
Proof.
  intros Hf Hv. destruct (nm_value_wf _ _ _ _ _ Hf Hv) as [-> Hw]. exists (nm_cell (NM w rows cols d)).
  cbn [member nm_container nm_member fst snd nm_rows nm_cols]. split; [done|]. split.
  - intros r c Hr Hc. by rewrite (nm_get_spec _ _ _ Hw Hr Hc).
  - intros r c v Hr Hc. destruct (nm_set_spec (NM w rows cols d) r c v Hw Hr Hc) as (m' & -> & Hw' & (S1 & S2 & S3) & Hm). cbn [obind].
    exists (nm_data m'). split; [done|]. intros r' c' Hr' Hc'. destruct m' as [w' a b e]. cbn in S1, S2, S3 |- *. subst.
    rewrite (nm_get_spec _ _ _ Hw' Hr' Hc'). cbn [obind]. rewrite Hm by done. done.
Qed.
Lemma nm_made w rows cols h d : nm_fits w rows cols -> make (nm_container w) (Some (rows, cols)) = (h, d) ->
  forall r c, r < rows -> c < cols -> member (nm_container w) h d (NGet r c) = Ret (NRValue 0, d).
Proof.
  intros Hf E r c Hr Hc. assert (Hv : value_of (nm_container w) (nm_inside rows cols) (Some (rows, cols)) h d) by by apply value_made.
  destruct (nm_value_wf _ _ _ _ _ Hf Hv) as [-> Hw]. cbn [member nm_container nm_member fst snd].
  rewrite (nm_get_spec _ _ _ Hw Hr Hc). cbn [obind]. cbn [make nm_container bm_container bv_container] in E. unfold nm_make in E.
  destruct (nm_new_wf w rows cols Hf) as (_ & F1 & F2 & F3 & F4). specialize (F4 r c).
  destruct (nm_new w rows cols) as [w' a b e]. cbn in E, F1, F2, F3, F4. injection E as _ _ <-. subst. by rewrite F4.
Qed.

Lemma bm_value_wf W rows cols h d : bm_fits W rows cols -> value_of (bm_container W) (bm_inside rows cols) (Some (rows, cols)) h d ->
  exists k, h = (rows, cols, k) /\ bm_wf W (BM rows cols k d).
Proof.
  intros Hf. assert (HW : 0 < W) by (destruct Hf as [Hf _]; lia). induction 1 as [h d E|h d o r d' _ (k & -> & IH) Ho E].
  - cbn [make nm_container bm_container bv_container] in E. unfold bm_make in E. destruct (bm_new_wf W rows cols Hf) as (Hw & E1 & E2 & _).
    rewrite E1, E2 in E. destruct (bm_new W rows cols) as [r' c' k d']. cbn in E, E1, E2. injection E as <- <-. eexists. split; [done|]. by subst.
  - exists k. split; [done|]. assert (Hb : forall c, c < cols -> c < k * W) by (destruct IH as [IH _]; cbn in IH; lia).
    cbn [member bm_container] in E. destruct o as [|r0 c0|r0 c0|r0 c0|r0 c0]; cbn [bm_member fst snd] in E.
    + by injection E as _ <-.
    + destruct (bm_test _ _ _ _); try done. by injection E as _ <-.
    + destruct Ho as [Hr Hc]. destruct (bm_set_spec W (BM rows cols k d) r0 c0 HW IH Hr (Hb _ Hc)) as (m' & Em & Hw & (S1 & S2 & S3) & _).
      rewrite Em in E. injection E as _ <-. destruct m' as [r' c' k' e]. cbn in S1, S2, S3 |- *. by subst.
    + destruct Ho as [Hr Hc]. destruct (bm_clear_spec W (BM rows cols k d) r0 c0 HW IH Hr (Hb _ Hc)) as (m' & Em & Hw & (S1 & S2 & S3) & _).
      rewrite Em in E. injection E as _ <-. destruct m' as [r' c' k' e]. cbn in S1, S2, S3 |- *. by subst.
    + destruct Ho as [Hr Hc]. destruct (bm_flip_spec W (BM rows cols k d) r0 c0 HW IH Hr (Hb _ Hc)) as (m' & Em & Hw & (S1 & S2 & S3) & _).
      rewrite Em in E. injection E as _ <-. destruct m' as [r' c' k' e]. cbn in S1, S2, S3 |- *. by subst.
Qed.
Lemma bm_members W rows cols h d : bm_fits W rows cols -> value_of (bm_container W) (bm_inside rows cols) (Some (rows, cols)) h d ->
  exists cell : nat -> nat -> bool,
    member (bm_container W) h d BShape = Ret (BRShape rows cols, d) /\
    (forall r c, r < rows -> c < cols -> member (bm_container W) h d (BTest r c) = Ret (BRBit (cell r c), d)) /\
    forall r c o new, r < rows -> c < cols -> (o = BSet r c /\ new = true \/ o = BClear r c /\ new = false \/ o = BFlip r c /\ new = negb (cell r c)) ->
      exists d', member (bm_container W) h d o = Ret (BRDone, d') /\
        forall r' c', r' < rows -> c' < cols -> member (bm_container W) h d' (BTest r' c') =
          Ret (BRBit (if Nat.eqb r' r && Nat.eqb c' c then new else cell r' c'), d').
Proof.
  intros Hf Hv. assert (HW : 0 < W) by (destruct Hf as [Hf' _]; lia). destruct (bm_value_wf _ _ _ _ _ Hf Hv) as (k & -> & Hw).
  assert (Hb : forall c, c < cols -> c < k * W) by (destruct Hw as [Hw' _]; cbn in Hw'; lia).
  exists (bm_bit W (BM rows cols k d)).
  cbn [member bm_container bm_member fst snd bm_rows bm_cols]. split; [done|]. split.
  - intros r c Hr Hc. by rewrite (bm_test_spec W (BM rows cols k d) r c HW Hw Hr (Hb _ Hc)).
  - intros r c o new Hr Hc Ho.
    assert (exists m', (match o with BSet r c => bm_set W (BM rows cols k d) r c | BClear r c => bm_clear W (BM rows cols k d) r c
      | BFlip r c => bm_flip W (BM rows cols k d) r c | _ => UB OutOfBounds end) = Ret m' /\ bm_wf W m' /\ bm_same_shape (BM rows cols k d) m' /\
      forall r' c', c' < k * W -> bm_bit W m' r' c' = if Nat.eqb r' r && Nat.eqb c' c then new else bm_bit W (BM rows cols k d) r' c') as (m' & Em & Hw' & (S1 & S2 & S3) & Hm).
    { destruct Ho as [[-> ->]|[[-> ->]|[-> ->]]].
      - exact (bm_set_spec W (BM rows cols k d) r c HW Hw Hr (Hb _ Hc)).
      - exact (bm_clear_spec W (BM rows cols k d) r c HW Hw Hr (Hb _ Hc)).
      - exact (bm_flip_spec W (BM rows cols k d) r c HW Hw Hr (Hb _ Hc)). }
    exists (bm_data m'). split.
    { destruct Ho as [[-> ->]|[[-> ->]|[-> ->]]]; cbn [bm_member fst snd]; by rewrite Em. }
    intros r' c' Hr' Hc'. destruct m' as [a b k' e]. cbn in S1, S2, S3 |- *. subst.
    rewrite (bm_test_spec W (BM rows cols k e) r' c' HW Hw' Hr' (Hb _ Hc')). cbn [obind]. rewrite Hm by auto. done.
Qed.
Lemma bm_made W rows cols h d : bm_fits W rows cols -> make (bm_container W) (Some (rows, cols)) = (h, d) ->
  forall r c, r < rows -> c < cols -> member (bm_container W) h d (BTest r c) = Ret (BRBit false, d).
Proof.
  intros Hf E r c Hr Hc. assert (HW : 0 < W) by (destruct Hf as [Hf' _]; lia).
  cbn [make nm_container bm_container bv_container] in E. unfold bm_make in E. destruct (bm_new_wf W rows cols Hf) as (Hw & F1 & F2 & F4). specialize (F4 r c).
  destruct (bm_new W rows cols) as [a b k e]. cbn in E, F1, F2, F4. injection E as <- <-. cbn [member bm_container bm_member fst snd]. subst.
  rewrite (bm_test_spec W (BM rows cols k e) r c HW Hw Hr) by (destruct Hw as [Hw' _]; cbn in Hw' |- *; lia). cbn [obind]. by rewrite F4.
Qed.

Lemma bv_new_wf W n : 0 < W -> bv_wf W (BV n (replicate (blocks_for W n) 0%N)) /\ forall q, bv_bit W (BV n (replicate (blocks_for W n) 0%N)) q = false.
Proof.
  intros HW. destruct (bv_of_storage_zero W n HW) as ((Hl & _) & E1 & E2 & _). split.
  - split; cbn [bv_len bv_blocks]; [|apply Forall_replicate_block]. rewrite replicate_length. rewrite E1, E2 in Hl. done.
  - intros q. unfold bv_bit. cbn [bv_blocks]. destruct (replicate (blocks_for W n) 0%N !! (q / W)) eqn:E; [|done].
    apply lookup_replicate in E as [-> _]. by rewrite N.bits_0.
Qed.
Lemma bv_value_wf W n h d : 0 < W -> value_of (bv_container W) (bv_inside n) (Some n) h d -> h = n /\ bv_wf W (BV n d).
Proof.
  intros HW. induction 1 as [h d E|h d o r d' _ [-> IH] Ho E].
  - cbn [make nm_container bm_container bv_container] in E. unfold bv_make in E. cbn [bv_new bv_len bv_blocks] in E. injection E as <- <-.
    split; [done|]. by apply bv_new_wf.
  - split; [done|]. cbn [member bv_container] in E. destruct o as [|i|i|i|i|i b|i b]; cbn [bv_member] in E.
    + by injection E as _ <-.
    + destruct (bv_get _ _ _); try done. by injection E as _ <-.
    + destruct (bv_set_spec W (BV n d) i HW IH Ho) as (v' & Em & Hw & El & _). rewrite Em in E. injection E as _ <-. destruct v' as [n' e]. cbn in El |- *. by subst.
    + destruct (bv_clear_spec W (BV n d) i HW IH Ho) as (v' & Em & Hw & El & _). rewrite Em in E. injection E as _ <-. destruct v' as [n' e]. cbn in El |- *. by subst.
    + destruct (bv_flip_spec W (BV n d) i HW IH Ho) as (v' & Em & Hw & El & _). rewrite Em in E. injection E as _ <-. destruct v' as [n' e]. cbn in El |- *. by subst.
    + destruct (bv_assign_spec W (BV n d) i b HW IH Ho) as (v' & Em & Hw & El & _). rewrite Em in E. injection E as _ <-. destruct v' as [n' e]. cbn in El |- *. by subst.
    + destruct (bv_XOR_spec W (BV n d) i b HW IH Ho) as (v' & Em & Hw & El & _). rewrite Em in E. injection E as _ <-. destruct v' as [n' e]. cbn in El |- *. by subst.
Qed.
Lemma bv_members W n h d : 0 < W -> value_of (bv_container W) (bv_inside n) (Some n) h d ->
  exists bit : nat -> bool,
    member (bv_container W) h d VSize = Ret (VRSize n, d) /\
    (forall i, i < n -> member (bv_container W) h d (VTest i) = Ret (VRBit (bit i), d)) /\
    forall i o new, i < n ->
      (o = VSet i /\ new = true \/ o = VClear i /\ new = false \/ o = VFlip i /\ new = negb (bit i) \/ o = VPut i new \/
       exists b, o = VXor i b /\ new = xorb b (bit i)) ->
      exists d', member (bv_container W) h d o = Ret (VRDone, d') /\
        forall q, q < n -> member (bv_container W) h d' (VTest q) = Ret (VRBit (if Nat.eqb q i then new else bit q), d').
Proof.
  intros HW Hv. destruct (bv_value_wf _ _ _ _ HW Hv) as [-> Hw]. exists (bv_bit W (BV n d)).
  cbn [member bv_container bv_member bv_len]. split; [done|]. split.
  - intros i Hi. by rewrite (bv_get_spec W (BV n d) i HW Hw Hi).
  - intros i o new Hi Ho.
    assert (exists v', (match o with VSet i => bv_set W (BV n d) i | VClear i => bv_clear W (BV n d) i | VFlip i => bv_flip W (BV n d) i
      | VPut i b => bv_assign W (BV n d) i b | VXor i b => bv_XOR W (BV n d) i b | _ => UB OutOfBounds end) = Ret v' /\ bv_wf W v' /\ bv_len v' = n /\
      forall q, bv_bit W v' q = if Nat.eqb q i then new else bv_bit W (BV n d) q) as (v' & Em & Hw' & El & Hm).
    { destruct Ho as [[-> ->]|[[-> ->]|[[-> ->]|[->|(b & -> & ->)]]]].
      - destruct (bv_set_spec W (BV n d) i HW Hw Hi) as (v' & ? & ? & ? & _ & ?). eauto.
      - destruct (bv_clear_spec W (BV n d) i HW Hw Hi) as (v' & ? & ? & ? & _ & ?). eauto.
      - destruct (bv_flip_spec W (BV n d) i HW Hw Hi) as (v' & ? & ? & ? & _ & ?). eauto.
      - destruct (bv_assign_spec W (BV n d) i new HW Hw Hi) as (v' & ? & ? & ? & _ & ?). eauto.
      - destruct (bv_XOR_spec W (BV n d) i b HW Hw Hi) as (v' & ? & ? & ? & _ & ?). eauto. }
    exists (bv_blocks v'). split.
    { destruct Ho as [[-> ->]|[[-> ->]|[[-> ->]|[->|(b & -> & ->)]]]]; cbn [bv_member]; by rewrite Em. }
    intros q Hq. destruct v' as [n' e]. cbn in El |- *. subst.
    rewrite (bv_get_spec W (BV n e) q HW Hw' Hq). cbn [obind]. by rewrite Hm.
Qed.
Lemma bv_made W n h d : 0 < W -> make (bv_container W) (Some n) = (h, d) ->
  forall i, i < n -> member (bv_container W) h d (VTest i) = Ret (VRBit false, d).
Proof.
  intros HW E i Hi. destruct (bv_new_wf W n HW) as [Hw Hz]. cbn [make bv_container] in E. unfold bv_make in E. cbn [bv_new bv_len bv_blocks] in E.
  injection E as <- <-. cbn [member bv_container bv_member]. rewrite bv_get_spec by done. cbn [obind]. by rewrite Hz.
Qed.
