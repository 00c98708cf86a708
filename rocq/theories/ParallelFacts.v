(** * Facts about parallel regions whose iterations read cells that nobody writes and then write one output cell each. *)
From Verif Require Import Wp VoteFacts Parallel.
From stdpp Require Import list.
Local Open Scope Z_scope.

(** ** Programs that only read *)
Section Reads.
  Context {M : machine} (ro : cell M -> Prop).
  Fixpoint only_reads {T} (p : prog M T) : Prop :=
    match p with
    | Lift _ => True
    | Read c k => ro c /\ forall v, only_reads (k v)
    | Write _ _ _ => False
    end.
  Lemma only_reads_bind {T U} (p : prog M T) (f : T -> prog M U) :
    only_reads p -> (forall t, only_reads (f t)) -> only_reads (pbind p f).
  Proof. induction p as [o|c k IH|c v p IH]; cbn; intros Hp Hf; [by destruct o|destruct Hp; split; auto|done]. Qed.
  Lemma only_reads_read c : ro c -> only_reads (pread c).
  Proof. intros H. split; [done|]. intros v. exact Logic.I. Qed.
  Lemma only_reads_for {St} (body : nat -> St -> prog M St) : (forall i s, only_reads (body i s)) ->
    forall n b s, only_reads (pfor b n s body).
  Proof. intros H n. induction n as [|n IH]; intros b s; cbn; [done|]. apply only_reads_bind; auto. Qed.
  Lemma exec_bind {T U} (p : prog M T) (f : T -> prog M U) m :
    exec (pbind p f) m = let* '(t, m) := exec p m in exec (f t) m.
  Proof.
    revert m. induction p as [o|c k IH|c v p IH]; intros m; cbn.
    - by destruct o.
    - destruct (peek M m c); cbn; auto.
    - destruct (poke M m c v); cbn; auto.
  Qed.
  Lemma exec_for {St} (body : nat -> St -> prog M St) (obody : nat -> St -> outcome St) m :
    (forall i s, exec (body i s) m = let* s := obody i s in Ret (s, m)) ->
    forall n b s, exec (pfor b n s body) m = let* s := ofor b n s obody in Ret (s, m).
  Proof.
    intros H n. induction n as [|n IH]; intros b s; cbn; [done|]. rewrite exec_bind, H. unfold ofor. cbn [seq ofold].
    destruct (obody b s) as [s'| | |]; cbn [obind]; [|done..]. apply IH.
  Qed.

  (** [will w j n p] : p reads n cells of [m] and then writes w to the output cell of j *)
  Context (oc : nat -> cell M) (m : memory M).
  Inductive will (w : val M) (j : nat) : nat -> prog M unit -> Prop :=
  | will_write : will w j 0 (Write (oc j) w (Lift (Ret tt)))
  | will_read c f v n : ro c -> peek M m c = Ret v -> will w j n (f v) -> will w j (S n) (Read c f).
  Lemma will_bind {T} (p : prog M T) (f : T -> prog M unit) t m' w j : only_reads p -> exec p m = Ret (t, m') ->
    f t = pwrite (oc j) w -> exists n, will w j n (pbind p f).
  Proof.
    revert t m'. induction p as [o|c k IH|c v p IH]; intros t m' Hp E Hf; [| |done].
    - destruct o; cbn in E; try discriminate E. injection E as -> ->. exists 0%nat. cbn. rewrite Hf. constructor.
    - cbn in E. apply obind_ret_inv in E as (v & E1 & E). destruct Hp as [Hr Hp]. destruct (IH v t m' (Hp v) E Hf) as (n & Hn).
      exists (Datatypes.S n). cbn. by econstructor.
  Qed.
End Reads.

Fixpoint total (l : list nat) : nat := match l with [] => 0 | n :: l => n + total l end.
Lemma total_app l1 l2 : total (l1 ++ l2) = (total l1 + total l2)%nat.
Proof. induction l1; cbn; lia. Qed.

(** ** Regions *)
Section Region.
  Context {M : machine} (body : nat -> prog M unit).
  (** memory with given outputs, cells that are only read, output cells, the value written by each iteration, its number of reads *)
  Context (mk : list Z -> memory M) (ro : cell M -> Prop) (oc : nat -> cell M) (w : nat -> val M) (z : val M -> Z) (cost : nat -> nat).
  Context (its : list nat) (out0 : list Z).
  Hypothesis Hro : forall c o o', ro c -> peek M (mk o) c = peek M (mk o') c.
  Hypothesis Hoc : forall j o v, poke M (mk o) (oc j) v = let* o := vset o j (z v) in Ret (mk o).
  Hypothesis Hdis : forall j, ~ ro (oc j).
  Hypothesis Hinj : forall i j, oc i = oc j -> i = j.
  Hypothesis Hbody : forall j, j ∈ its -> will ro oc (mk out0) (w j) j (cost j) (body j).
  Hypothesis Hlen : forall j, j ∈ its -> (j < length out0)%nat.
  Hypothesis Hnd : NoDup its.

  (** where a thread stands *)
  Inductive slot := Idle | Busy (j n : nat) | Ending.
  Definition slot_ok (s : slot) (t : option (prog M unit)) : Prop :=
    match s with
    | Idle => t = None
    | Busy j n => exists p, t = Some p /\ will ro oc (mk out0) (w j) j n p
    | Ending => t = Some (Lift (Ret tt))
    end.
  Definition busy (s : slot) : option nat := match s with Busy j _ => Some j | _ => None end.
  Definition left (s : slot) : nat := match s with Idle => 0 | Busy _ n => 2 + n | Ending => 1 end.
  Definition weight (pool : list nat) (slots : list slot) : nat :=
    (total (map (fun j => 3 + cost j) pool) + total (map left slots))%nat.

  Record inv (r : region M) (slots : list slot) (dn : list nat) (out : list Z) : Prop := {
    i_slots : Forall2 slot_ok slots (r_threads r);
    i_perm : r_pool r ++ base.omap busy slots ++ dn ≡ₚ its;
    i_mem : r_mem r = mk out;
    i_len : length out = length out0;
    i_out : forall i, out !! i = if decide (i ∈ dn) then Some (z (w i)) else out0 !! i }.

  Lemma start_inv k : inv (start its k (mk out0)) (replicate k Idle) [] out0.
  Proof.
    split; cbn; [| |done|done|].
    - induction k; cbn; constructor; done.
    - assert (base.omap busy (replicate k Idle) = []) as -> by (induction k; done). by rewrite !app_nil_r.
    - intros i. rewrite decide_False; [done|]. apply not_elem_of_nil.
  Qed.

  Lemma left_insert slots k s s' : slots !! k = Some s -> (total (map left (<[k := s']> slots)) + left s = total (map left slots) + left s')%nat.
  Proof.
    intros E. rewrite insert_take_drop by (by eapply lookup_lt_Some). rewrite <- (take_drop_middle slots k s E) at 3.
    rewrite !map_app. cbn [map]. rewrite !total_app. cbn [total]. lia.
  Qed.
  Lemma busy_insert slots k s s' : slots !! k = Some s ->
    option_list (busy s) ++ base.omap busy (<[k := s']> slots) ≡ₚ option_list (busy s') ++ base.omap busy slots.
  Proof.
    intros E. rewrite insert_take_drop by (by eapply lookup_lt_Some). rewrite <- (take_drop_middle slots k s E) at 3.
    rewrite !omap_app. cbn [base.omap list_omap]. destruct (busy s), (busy s'); cbn [option_list app];
      rewrite <- ?Permutation_middle; try done. by constructor.
  Qed.

  Lemma step_inv r r' slots dn out : inv r slots dn out -> step body r r' ->
    exists slots' dn' out', inv r' slots' dn' out' /\ length slots' = length slots /\
      (weight (r_pool r) slots = S (weight (r_pool r') slots'))%nat.
  Proof using Hro Hoc Hdis Hinj Hbody Hlen Hnd.
    intros [Hs Hp Hm Hl Ho] Hst.
    assert (forall k (t : option (prog M unit)), r_threads r !! k = Some t -> exists s, slots !! k = Some s /\ slot_ok s t) as Hget.
    { intros k t Et. destruct (Forall2_lookup_r _ _ _ _ _ Hs Et) as (s & ? & ?). by exists s. }
    assert (forall k s' t', slot_ok s' t' -> Forall2 slot_ok (<[k := s']> slots) (<[k := t']> (r_threads r))) as Hset.
    { intros k s' t' Hok. by apply Forall2_insert. }
    destruct Hst as [p1 j p2 ts m k Ek|pool ts m k c f v Ek Ev|pool ts m m' k c v p Ek Ev|pool ts m k Ek]; cbn [r_pool r_threads r_mem] in *.
    - destruct (Hget _ _ Ek) as (s & Es & Hok). destruct s as [|? ?|]; cbn in Hok; [|by destruct Hok as (? & ? & _)|done].
      exists (<[k := Busy j (cost j)]> slots), dn, out. split_and!; [split| |].
      + apply Hset. exists (body j). split; [done|]. apply Hbody. rewrite <- Hp. apply elem_of_app. left. apply elem_of_app. right. by left.
      + pose proof (busy_insert slots k Idle (Busy j (cost j)) Es) as Hb. cbn [busy option_list app] in Hb. cbn [r_pool].
        rewrite Hb, <- Hp, <- !(assoc_L (++)). cbn [app]. apply Permutation_app_head. symmetry. apply Permutation_middle.
      + done. + done. + done.
      + by rewrite insert_length.
      + cbn [r_pool]. unfold weight. pose proof (left_insert slots k Idle (Busy j (cost j)) Es) as HL. cbn [left] in HL.
        rewrite !map_app, !total_app. cbn [map]. cbn [total]. lia.
    - destruct (Hget _ _ Ek) as (s & Es & Hok). destruct s as [|j n|]; cbn in Hok; [done| |done].
      destruct Hok as (p & [= <-] & Hw). inversion Hw as [|? ? v' n' Hc Hv Hw']; subst.
      rewrite (Hro _ _ out0 Hc), Hv in Ev. injection Ev as <-.
      exists (<[k := Busy j n']> slots), dn, out. split_and!; [split| |].
      + apply Hset. eexists. split; [done|done].
      + pose proof (busy_insert slots k (Busy j (S n')) (Busy j n') Es) as Hb. cbn [busy option_list app] in Hb.
        apply Permutation_cons_inv in Hb. cbn [r_pool]. by rewrite Hb.
      + done. + done. + done.
      + by rewrite insert_length.
      + unfold weight. pose proof (left_insert slots k (Busy j (S n')) (Busy j n') Es) as HL. cbn [left] in HL.
        cbn [r_pool]. lia.
    - destruct (Hget _ _ Ek) as (s & Es & Hok). destruct s as [|j n|]; cbn in Hok; [done| |done].
      destruct Hok as (q & [= <-] & Hw). inversion Hw; subst. rewrite Hoc in Ev.
      apply obind_ret_inv in Ev as (o' & Eo & [= <-]). unfold vset in Eo. case_decide as Hj; [|done]. injection Eo as <-.
      pose proof (busy_insert slots k (Busy j 0) Ending Es) as Hb. cbn [busy option_list app] in Hb.
      assert (j ∉ dn) as Hnj.
      { intros Hin. rewrite <- Hp, <- Hb in Hnd. apply NoDup_app in Hnd as (_ & _ & Hnd'). cbn [app] in Hnd'.
        apply NoDup_cons in Hnd' as [Hx _]. apply Hx. apply elem_of_app. by right. }
      exists (<[k := Ending]> slots), (j :: dn), (<[j := z (w j)]> out). split_and!; [split| |].
      + by apply Hset.
      + cbn [r_pool]. rewrite <- Hp, <- Hb. cbn [app]. by rewrite <- (Permutation_middle (base.omap busy _)).
      + done.
      + by rewrite insert_length.
      + intros i. destruct (decide (i = j)) as [->|Hne].
        * rewrite list_lookup_insert by done. by rewrite decide_True by left.
        * rewrite list_lookup_insert_ne by done. rewrite Ho. destruct (decide (i ∈ dn)) as [Hi|Hi].
          -- by rewrite decide_True by (by right).
          -- rewrite decide_False; [done|]. by intros [?|?]%elem_of_cons.
      + by rewrite insert_length.
      + unfold weight. pose proof (left_insert slots k (Busy j 0) Ending Es) as HL. cbn [left] in HL. cbn [r_pool]. lia.
    - destruct (Hget _ _ Ek) as (s & Es & Hok). destruct s as [|j n|]; cbn in Hok; [done| |].
      { destruct Hok as (q & [= <-] & Hw). inversion Hw. }
      exists (<[k := Idle]> slots), dn, out. split_and!; [split| |].
      + by apply Hset.
      + pose proof (busy_insert slots k Ending Idle Es) as Hb. cbn [busy option_list app] in Hb. cbn [r_pool]. by rewrite Hb.
      + done. + done. + done.
      + by rewrite insert_length.
      + unfold weight. pose proof (left_insert slots k Ending Idle Es) as HL. cbn [left] in HL. cbn [r_pool]. lia.
  Qed.

  Lemma steps_inv n k r : steps body n (start its k (mk out0)) r ->
    exists slots dn out, inv r slots dn out /\ length slots = k /\
      (n + weight (r_pool r) slots = total (map (fun j => 3 + cost j) its))%nat.
  Proof using Hro Hoc Hdis Hinj Hbody Hlen Hnd.
    intros H. remember (start its k (mk out0)) as r0 eqn:E0. induction H as [r|n r1 r2 r3 H IH Hst]; subst.
    - exists (replicate k Idle), [], out0. split; [apply start_inv|]. split; [apply replicate_length|].
      unfold weight. cbn [r_pool start]. assert (total (map left (replicate k Idle)) = 0%nat) as ->; [|lia]. induction k; cbn; done.
    - destruct (IH eq_refl) as (slots & dn & out & Hi & Hk & Hw).
      destruct (step_inv _ _ _ _ _ Hi Hst) as (slots' & dn' & out' & Hi' & Hk' & Hw').
      exists slots', dn', out'. split; [done|]. split; [by rewrite Hk'|]. lia.
  Qed.

  (** what is known about every configuration a region can reach *)
  Lemma region_ok k r : (1 <= k)%nat -> reaches body (start its k (mk out0)) r ->
    ~ races r /\ ~ goes_wrong r /\ (finished r \/ exists r', step body r r') /\
    (finished r -> exists out, r_mem r = mk out /\ length out = length out0 /\
       forall i, out !! i = if decide (i ∈ its) then Some (z (w i)) else out0 !! i).
  Proof using Hro Hoc Hdis Hinj Hbody Hlen Hnd.
    intros Hk (n & Hn). destruct (steps_inv _ _ _ Hn) as (slots & dn & out & [Hs Hp Hm Hl Ho] & Hsk & _). clear n Hn.
    assert (forall k (t : option (prog M unit)), r_threads r !! k = Some t -> exists s, slots !! k = Some s /\ slot_ok s t) as Hget.
    { intros k' t Et. destruct (Forall2_lookup_r _ _ _ _ _ Hs Et) as (s & ? & ?). by exists s. }
    assert (forall k j n, slots !! k = Some (Busy j n) -> j ∈ its) as Hin.
    { intros k' j n Es. rewrite <- Hp. apply elem_of_app. right. apply elem_of_app. left. apply elem_of_list_omap.
      exists (Busy j n). split; [by eapply elem_of_list_lookup_2|done]. }
    assert (forall k c b, next_access r k c b ->
      exists j n, slots !! k = Some (Busy j n) /\ (b = false -> ro c) /\ (b = true -> c = oc j)) as Hacc.
    { intros k' c b. unfold next_access. destruct (r_threads r !! k') as [[p|]|] eqn:E; [|done|done].
      destruct (Hget _ _ E) as (s & Es & Hok). destruct p as [o|c' f|c' v p]; [done| |]; intros [-> ->];
        (destruct s as [|j n|]; cbn in Hok; [done| |done]); destruct Hok as (q & [= <-] & Hw); inversion Hw; subst;
        exists j; eexists; (split; [exact Es|]); split; try done. }
    split_and!.
    - intros (k1 & k2 & c & w1 & w2 & Hne & H1 & H2 & Hb).
      destruct (Hacc _ _ _ H1) as (j1 & n1 & E1 & F1 & T1). destruct (Hacc _ _ _ H2) as (j2 & n2 & E2 & F2 & T2).
      destruct w1, w2; [|by apply (Hdis j1); rewrite <- T1 by done; apply F2|by apply (Hdis j2); rewrite <- T2 by done; apply F1|done].
      assert (j1 = j2) as <- by (apply Hinj; rewrite <- T1, <- T2 by done; done). clear T1 T2 F1 F2 H1 H2 Hb.
      pose proof (busy_insert slots k1 (Busy j1 n1) Idle E1) as Hb. cbn [busy option_list app] in Hb.
      assert (<[k1 := Idle]> slots !! k2 = Some (Busy j1 n2)) as E2' by (by rewrite list_lookup_insert_ne).
      pose proof (busy_insert _ k2 (Busy j1 n2) Idle E2') as Hb'. cbn [busy option_list app] in Hb'.
      assert (NoDup (base.omap busy slots)) as Hd. { rewrite <- Hp in Hnd. by apply NoDup_app in Hnd as (_ & _ & (? & _)%NoDup_app). }
      rewrite <- Hb, <- Hb' in Hd. apply NoDup_cons in Hd as [Hx _]. apply Hx. left.
    - intros (k' & p & E & Hw). destruct (Hget _ _ E) as (s & Es & Hok). destruct s as [|j n|]; cbn in Hok; [done| |].
      + destruct Hok as (q & [= <-] & Hq). inversion Hq as [|c f v n' Hc Hv Hq']; subst.
        * rewrite Hm in Hw. apply (Hw (mk (<[j := z (w j)]> out))). rewrite Hoc. rewrite vset_ret; [done|]. rewrite Hl.
          apply Hlen. by eapply Hin.
        * apply (Hw v). by rewrite Hm, (Hro _ _ out0).
      + injection Hok as ->. by apply (Hw tt).
    - destruct r as [pool ts m]. cbn [r_pool r_threads r_mem] in *. subst m.
      destruct (decide (Forall (fun t => t = None) ts)) as [Hf|Hf].
      + destruct pool as [|j pool]; [by left|]. right. assert (ts !! 0%nat = Some None) as E0.
        { apply Forall2_length in Hs. destruct ts as [|t ts]; [cbn in Hs; lia|]. apply Forall_cons in Hf as [-> _]. done. }
        eexists. by apply (TakeIteration body [] j pool ts _ 0%nat).
      + right. apply not_Forall_Exists in Hf; [|intros t; destruct t; [by right|by left]].
        apply Exists_exists in Hf as (t & Hin' & Ht). apply elem_of_list_lookup in Hin' as (k' & E).
        destruct (Hget _ _ E) as (s & Es & Hok). destruct s as [|j n|]; cbn in Hok; [done| |].
        * destruct Hok as (q & -> & Hq). inversion Hq as [|c f v n' Hc Hv Hq']; subst.
          -- eexists. eapply WriteCell; [exact E|]. rewrite Hoc, vset_ret; [done|]. rewrite Hl. apply Hlen. by eapply Hin.
          -- eexists. eapply ReadCell; [exact E|]. rewrite (Hro _ _ out0) by done. exact Hv.
        * subst t. eexists. by eapply EndIteration.
    - intros [Hp0 Hf]. exists out. split; [done|]. split; [done|]. rewrite Hp0 in Hp. cbn [app] in Hp.
      assert (base.omap busy slots = []) as Hb.
      { clear -Hs Hf. induction Hs as [|s t ss ts Hok Hs IH]; [done|]. apply Forall_cons in Hf as [-> Hf].
        destruct s as [|? ?|]; cbn in *; [by apply IH|by destruct Hok as (? & ? & _)|done]. }
      rewrite Hb in Hp. cbn [app] in Hp. intros i. rewrite Ho. destruct (decide (i ∈ dn)) as [Hi|Hi].
      + rewrite decide_True; [done|]. by rewrite <- Hp.
      + rewrite decide_False; [done|]. by rewrite <- Hp.
  Qed.
  (** all complete runs have the same length, no run is longer *)
  Lemma region_bound n k r : steps body n (start its k (mk out0)) r -> (n <= total (map (fun j => 3 + cost j) its))%nat.
  Proof using Hro Hoc Hdis Hinj Hbody Hlen Hnd. intros H. destruct (steps_inv _ _ _ H) as (? & ? & ? & _ & _ & E). lia. Qed.
End Region.
