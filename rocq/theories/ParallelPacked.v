(** * The overload of calculate_clause_output_T with packed clause outputs. *)
From Verif Require Export Parallel.
From Verif Require Import Wp ContainersFacts ParallelFacts ParallelBodies ParallelProps.
From stdpp Require Import list.
Local Open Scope Z_scope.

(** ** Runs *)
Section Runs.
  Context {M : machine} (body : nat -> prog M unit).
  Lemma reaches_refl r : reaches body r r. Proof. exists 0%nat. constructor. Qed.
  Lemma reaches_step r1 r2 r3 : reaches body r1 r2 -> step body r2 r3 -> reaches body r1 r3.
  Proof. intros (n & H) Hs. exists (Datatypes.S n). by econstructor. Qed.
  Lemma reaches_trans r1 r2 r3 : reaches body r1 r2 -> reaches body r2 r3 -> reaches body r1 r3.
  Proof. intros H (n & Hn). induction Hn as [|n ? ? ? ? IH Hs]; [done|]. eapply reaches_step; [|exact Hs]. by apply IH. Qed.
  Lemma reaches_one r1 r2 : step body r1 r2 -> reaches body r1 r2.
  Proof. apply reaches_step, reaches_refl. Qed.

  (** a thread makes its reads *)
  Lemma reads_reach {T} ro pool ts k m (p : prog M T) (f : T -> prog M unit) t m' : only_reads ro p -> exec p m = Ret (t, m') ->
    ts !! k = Some (Some (pbind p f)) -> reaches body (Region pool ts m) (Region pool (<[k := Some (f t)]> ts) m).
  Proof.
    revert ts t m'. induction p as [o|c g IH|c v p IH]; intros ts t m' Hp E Ek; [| |done].
    - destruct o; cbn in E; try discriminate E. injection E as -> ->. cbn in Ek. rewrite list_insert_id by done. apply reaches_refl.
    - cbn in E. apply obind_ret_inv in E as (v & Ev & E). destruct Hp as [_ Hp].
      eapply reaches_trans; [eapply reaches_one, ReadCell; [exact Ek|exact Ev]|].
      pose proof (IH v (<[k := Some (pbind (g v) f)]> ts) t m' (Hp v) E) as H. rewrite list_insert_insert in H. apply H.
      apply list_lookup_insert. by eapply lookup_lt_Some.
  Qed.
  (** a thread finishes its iteration *)
  Lemma exec_reach pool ts k m (p : prog M unit) m' : exec p m = Ret (tt, m') -> ts !! k = Some (Some p) ->
    reaches body (Region pool ts m) (Region pool (<[k := None]> ts) m').
  Proof.
    revert ts m. induction p as [o|c g IH|c v p IH]; intros ts m E Ek.
    - destruct o as [[]| | |]; cbn in E; try discriminate E. injection E as ->. by apply reaches_one, EndIteration.
    - cbn in E. apply obind_ret_inv in E as (v & Ev & E). eapply reaches_trans; [eapply reaches_one, ReadCell; [exact Ek|exact Ev]|].
      pose proof (IH v (<[k := Some (g v)]> ts) m E) as H. rewrite list_insert_insert in H. apply H. apply list_lookup_insert. by eapply lookup_lt_Some.
    - cbn in E. apply obind_ret_inv in E as (m1 & Ev & E). eapply reaches_trans; [eapply reaches_one, WriteCell; [exact Ek|exact Ev]|].
      pose proof (IH (<[k := Some p]> ts) m1 E) as H. rewrite list_insert_insert in H. apply H. apply list_lookup_insert. by eapply lookup_lt_Some.
  Qed.
End Runs.

(** iterations one after the other *)
Definition one_by_one {M} (body : nat -> prog M unit) (its : list nat) (m : memory M) : outcome (memory M) :=
  ofold its m (fun j m => let* '(_, m) := exec (body j) m in Ret m).
Lemma one_by_one_reach {M} (body : nat -> prog M unit) ts m its1 its2 m' : ts !! 0%nat = Some None ->
  one_by_one body its1 m = Ret m' -> reaches body (Region (its1 ++ its2) ts m) (Region its2 ts m').
Proof.
  intros E0. revert m. induction its1 as [|j its1 IH]; intros m E; cbn in E.
  - injection E as ->. apply reaches_refl.
  - apply obind_ret_inv in E as (m1 & Ej & E). apply obind_ret_inv in Ej as ([[] m2] & Ej & [= ->]).
    eapply reaches_trans; [|by apply IH]. eapply reaches_trans; [by apply reaches_one, (TakeIteration body [] j (its1 ++ its2) ts m 0%nat)|].
    pose proof (exec_reach body (its1 ++ its2) (<[0%nat := Some (body j)]> ts) 0%nat m _ _ Ej) as H. rewrite list_insert_insert, (list_insert_id ts 0 None E0) in H.
    apply H. apply list_lookup_insert. by eapply lookup_lt_Some.
Qed.

Section Packed.
  Context (B : nat) (X : bit_vector) (p : bmatrix).
  Notation nblx := (bv_content_blocks 64 X).
  Notation body := (packed_body B nblx).
  Lemma kfeature_exec o k : exec (kfeature k) (PMem X p o) = let* x := vget (bv_blocks X) k in Ret (x, PMem X p o).
  Proof. cbn. by destruct (vget _ k). Qed.
  Lemma kpolarity_exec o r k : exec (kpolarity r k) (PMem X p o) = let* x := bm_block p r k in Ret (x, PMem X p o).
  Proof. cbn. by destruct (bm_block p r k). Qed.
  Lemma kfeature_reads k : only_reads (M := packed_machine) b_ro (kfeature k). Proof. by split. Qed.
  Lemma kpolarity_reads r k : only_reads (M := packed_machine) b_ro (kpolarity r k). Proof. by split. Qed.
  Lemma packed_reads j : only_reads (M := packed_machine) b_ro (pbw_clause packed_machine kfeature kpolarity B nblx j).
  Proof. apply pbw_clause_reads; [apply kfeature_reads|apply kpolarity_reads]. Qed.
  Lemma packed_clause j (b : bool) o : bw_clause B X p j = Ret (b2z b) ->
    exec (pbw_clause packed_machine kfeature kpolarity B nblx j) (PMem X p o) = Ret (b, PMem X p o).
  Proof.
    intros E. destruct (pbw_clause_exec packed_machine _ _ (PMem X p o) B X p (kfeature_exec o) (kpolarity_exec o) j _ E) as (b' & Eb & Q).
    rewrite Q. by destruct b, b'.
  Qed.
  Lemma kassign_exec o j b : exec (kassign j b) (PMem X p o) = let* o := bv_assign 64 o j b in Ret (tt, PMem X p o).
  Proof.
    unfold kassign, bv_assign, bv_set, bv_clear, pread, pwrite. cbn [exec pbind peek packed_machine pm_out].
    destruct b; destruct (vget (bv_blocks o) (j / 64)) as [x| | |]; cbn [obind exec poke packed_machine pret pm_out pm_x pm_pol pbind]; try done;
      destruct (vset _ _ _); done.
  Qed.

  (** outputs known, bits in range *)
  Context (f : nat -> bool) (its : list nat) (o0 : bit_vector).
  Hypothesis Hf : forall j, j ∈ its -> bw_clause B X p j = Ret (b2z (f j)).
  Hypothesis Hlen : forall j, j ∈ its -> (j < bv_len o0)%nat.
  Hypothesis Hnd : NoDup its.

  Lemma packed_seq l o : bv_wf 64 o -> bv_len o = bv_len o0 -> (forall j, j ∈ l -> j ∈ its) ->
    exists o', one_by_one body l (PMem X p o) = Ret (PMem X p o') /\ bv_wf 64 o' /\ bv_len o' = bv_len o0 /\
      forall q, bv_bit 64 o' q = if decide (q ∈ l) then f q else bv_bit 64 o q.
  Proof using Hf Hlen.
    revert o. unfold one_by_one. induction l as [|j l IH]; intros o Hw Hl Hin.
    - exists o. split; [done|]. split; [done|]. split; [done|]. intros q. rewrite decide_False; [done|]. apply not_elem_of_nil.
    - cbn [ofold]. unfold packed_body at 1. rewrite exec_bind, (packed_clause j (f j)) by (apply Hf, Hin; left). cbn [obind]. rewrite kassign_exec.
      destruct (bv_assign_spec 64 o j (f j)) as (o1 & E & Hw1 & Hl1 & _ & Hb); [lia|done|rewrite Hl; apply Hlen, Hin; left|].
      rewrite E. cbn [obind]. destruct (IH o1 Hw1) as (o' & E' & Hw' & Hl' & Hb'); [by rewrite Hl1|intros; apply Hin; by right|].
      exists o'. split; [done|]. split; [done|]. split; [done|]. intros q. rewrite Hb', Hb. destruct (decide (q ∈ l)) as [Hq|Hq].
      + by rewrite decide_True by (by right).
      + destruct (Nat.eqb_spec q j) as [->|Hne]; [by rewrite decide_True by left|].
        rewrite decide_False; [done|]. by intros [?|?]%elem_of_cons.
  Qed.

  Context (Hw : bv_wf 64 o0) (k : nat) (Hk : (2 <= k)%nat).
  Context (j1 j2 : nat) (Hj1 : j1 ∈ its) (Hj2 : j2 ∈ its) (Hne : j1 <> j2) (Hblk : (j1 / 64 = j2 / 64)%nat).

  Lemma two_split : exists its1, its ≡ₚ its1 ++ [j1; j2] /\ (forall j, j ∈ its1 -> j ∈ its) /\ j1 ∉ its1.
  Proof using Hnd Hj1 Hj2 Hne Hblk.
    apply elem_of_Permutation in Hj1 as (l1 & E1). assert (j2 ∈ l1) as H2.
    { rewrite E1 in Hj2. apply elem_of_cons in Hj2 as [->|?]; done. }
    apply elem_of_Permutation in H2 as (l2 & E2). exists l2. rewrite E1, E2. split_and!.
    - rewrite Permutation_app_comm. done.
    - intros j Hj. rewrite E1, E2. by do 2 right.
    - rewrite E1, E2 in Hnd. apply NoDup_cons in Hnd as [Hx _]. intros H. apply Hx. by right.
  Qed.
  (** iterations can be taken in any order *)
  Lemma pool_order l1 l2 ts m m' : l1 ≡ₚ l2 -> ts !! 0%nat = Some None -> forall q2, l2 = q2 ++ [j1; j2] -> one_by_one body q2 m = Ret m' ->
    exists a b, reaches body (Region l1 ts m) (Region (if a : bool then [j1; j2] else [j2; j1]) ts m') /\ b = a.
  Proof using.
    intros Hp E0 q2 -> Eq. revert l1 m Hp Eq. induction q2 as [|j q2 IH]; intros l1 m Hp Eq.
    - cbn in Eq. injection Eq as ->. cbn [app] in Hp. destruct (Permutation_length_2_inv (symmetry Hp)) as [-> | ->].
      + exists true, true. split; [apply reaches_refl|done].
      + exists false, false. split; [apply reaches_refl|done].
    - cbn in Eq. apply obind_ret_inv in Eq as (m1 & Ej & Eq). apply obind_ret_inv in Ej as ([[] m2] & Ej & [= ->]).
      assert (j ∈ l1) as Hj by (rewrite Hp; left). apply elem_of_list_split in Hj as (p1 & p2 & ->).
      destruct (IH (p1 ++ p2) m1) as (a & b & Hr & ->); [|done|].
      { rewrite <- Permutation_middle in Hp. cbn [app] in Hp. by apply Permutation_cons_inv in Hp. }
      exists a, a. split; [|done]. eapply reaches_trans; [|exact Hr].
      eapply reaches_trans; [by apply reaches_one, (TakeIteration body p1 j p2 ts m 0%nat)|].
      pose proof (exec_reach body (p1 ++ p2) (<[0%nat := Some (body j)]> ts) 0%nat m _ _ Ej) as H. rewrite list_insert_insert, (list_insert_id ts 0 None E0) in H.
      apply H. apply list_lookup_insert. by eapply lookup_lt_Some.
  Qed.

  (** both threads have read the block and are about to write it *)
  Lemma packed_clash : exists o ts b, reaches body (start (M := packed_machine) its k (PMem X p o0)) (Region (M := packed_machine) [] ts (PMem X p o)) /\
    bv_wf 64 o /\ bv_len o = bv_len o0 /\ bv_bit 64 o j1 = bv_bit 64 o0 j1 /\ bv_blocks o !! (j1 / 64)%nat = Some b /\
    length ts = k /\
    ts = <[1%nat := Some (pwrite (M := packed_machine) (BOutput (j1 / 64)) (if f j2 then N.lor b (set_mask 64 j2) else N.land b (clear_mask 64 j2)))]>
         (<[0%nat := Some (pwrite (M := packed_machine) (BOutput (j1 / 64)) (if f j1 then N.lor b (set_mask 64 j1) else N.land b (clear_mask 64 j1)))]>
           (replicate k None)).
  Proof using Hf Hlen Hnd Hw Hk Hj1 Hj2 Hne Hblk.
    destruct two_split as (q & Hp & Hq & Hnq). destruct (packed_seq q o0 Hw eq_refl Hq) as (o & E & Hwo & Hlo & Hb).
    assert (replicate k (@None (prog packed_machine unit)) !! 0%nat = Some None) as E0 by (apply lookup_replicate_2; lia).
    destruct (pool_order its (q ++ [j1; j2]) (replicate k None) (PMem X p o0) (PMem X p o) Hp E0 q eq_refl E) as (a & ? & Hr & _).
    assert (exists b, bv_blocks o !! (j1 / 64)%nat = Some b) as (b & Eb).
    { apply lookup_lt_is_Some_2. apply bv_pos_in; [lia|done|]. destruct Hwo as [Hc _]. specialize (Hlen j1 Hj1). lia. }
    eexists o, _, b. split; [|split_and!; [done|done| |done| |reflexivity]].
    - eapply reaches_trans; [exact Hr|].
      (* thread 0 takes j1, thread 1 takes j2 *)
      set (ts0 := replicate k (@None (prog packed_machine unit))) in *.
      assert (ts0 !! 1%nat = Some None) as E1 by (apply lookup_replicate_2; lia).
      set (ts1 := <[1%nat := Some (body j2)]> (<[0%nat := Some (body j1)]> ts0)).
      assert (reaches body (Region (if a then [j1; j2] else [j2; j1]) ts0 (PMem X p o)) (Region [] ts1 (PMem X p o))) as Ht.
      { destruct a.
        - eapply reaches_trans; [by apply reaches_one, (TakeIteration body [] j1 [j2] ts0 _ 0%nat)|].
          apply reaches_one, (TakeIteration body [] j2 [] _ _ 1%nat). by rewrite list_lookup_insert_ne.
        - eapply reaches_trans; [by apply reaches_one, (TakeIteration body [j2] j1 [] ts0 _ 0%nat)|].
          apply reaches_one, (TakeIteration body [] j2 [] _ _ 1%nat). by rewrite list_lookup_insert_ne. }
      eapply reaches_trans; [exact Ht|]. assert (length ts0 = k) as Hlt by apply replicate_length.
      (* thread 0 evaluates j1 and reads the block *)
      eapply reaches_trans; [eapply (reads_reach body b_ro [] ts1 0%nat (PMem X p o) _ (kassign j1)); [apply packed_reads|apply packed_clause, Hf, Hj1|]|].
      { unfold ts1. rewrite list_lookup_insert_ne by done. apply list_lookup_insert. lia. }
      eapply reaches_trans; [eapply reaches_one, ReadCell; [apply list_lookup_insert; unfold ts1; rewrite !insert_length; lia|]|].
      { cbn [peek packed_machine pm_out]. unfold vget. rewrite Eb. reflexivity. }
      rewrite list_insert_insert.
      eapply reaches_trans; [eapply (reads_reach body b_ro [] _ 1%nat (PMem X p o) _ (kassign j2)); [apply packed_reads|apply packed_clause, Hf, Hj2|]|].
      { rewrite list_lookup_insert_ne by done. unfold ts1. apply list_lookup_insert. rewrite insert_length. lia. }
      eapply reaches_trans; [eapply reaches_one, ReadCell; [apply list_lookup_insert; unfold ts1; rewrite !insert_length; lia|]|].
      { cbn [peek packed_machine pm_out]. rewrite <- Hblk. unfold vget. rewrite Eb. reflexivity. }
      rewrite list_insert_insert. unfold ts1. rewrite (list_insert_commute _ 0%nat 1%nat) by done. rewrite list_insert_insert.
      rewrite (list_insert_insert ts0 0%nat). cbn [pbind pret]. rewrite <- Hblk.
      apply reaches_refl.
    - rewrite Hb. by rewrite decide_False.
    - by rewrite !insert_length, replicate_length.
  Qed.

  Lemma packed_race : exists r, reaches body (start (M := packed_machine) its k (PMem X p o0)) r /\ races r.
  Proof using Hf Hlen Hnd Hw Hk Hj1 Hj2 Hne Hblk.
    destruct packed_clash as (o & ts & b & Hr & _ & _ & _ & _ & Hl & Ets). eexists. split; [exact Hr|].
    exists 0%nat, 1%nat, (BOutput (j1 / 64)), true, true. split; [done|]. rewrite Ets.
    unfold next_access. cbn [r_threads]. rewrite list_lookup_insert_ne by done.
    rewrite list_lookup_insert by (rewrite replicate_length; lia). rewrite list_lookup_insert by (rewrite insert_length, replicate_length; lia).
    done.
  Qed.

  Lemma packed_lost : exists r, reaches body (start (M := packed_machine) its k (PMem X p o0)) r /\ finished r /\
    bv_get 64 (pm_out (r_mem r)) j1 = bv_get 64 o0 j1.
  Proof using Hf Hlen Hnd Hw Hk Hj1 Hj2 Hne Hblk.
    destruct packed_clash as (o & ts & b & Hr & Hwo & Hlo & Hbit & Eb & Hl & Ets).
    destruct (bv_assign_spec 64 o j2 (f j2)) as (o2 & E2 & Hw2 & Hl2 & _ & Hb2); [lia|done|rewrite Hlo; by apply Hlen|].
    exists (Region (M := packed_machine) [] (replicate k None) (PMem X p o2)). split_and!; [|split; [done|apply Forall_replicate; done]|].
    - eapply reaches_trans; [exact Hr|]. set (w1 := if f j1 then N.lor b (set_mask 64 j1) else N.land b (clear_mask 64 j1)) in *.
      set (w2 := if f j2 then N.lor b (set_mask 64 j2) else N.land b (clear_mask 64 j2)) in *.
      assert (ts !! 0%nat = Some (Some (pwrite (M := packed_machine) (BOutput (j1 / 64)) w1))) as E0.
      { rewrite Ets. rewrite list_lookup_insert_ne by done. apply list_lookup_insert. rewrite replicate_length. lia. }
      assert (j1 / 64 < length (bv_blocks o))%nat as Hlt by (by eapply lookup_lt_Some).
      assert (exec (M := packed_machine) (pwrite (M := packed_machine) (BOutput (j1 / 64)) w1) (PMem X p o) =
        Ret (tt, PMem X p (BV (bv_len o) (<[(j1 / 64)%nat := w1]> (bv_blocks o))))) as X1.
      { cbn [exec pwrite poke packed_machine pm_out pm_x pm_pol]. rewrite vset_ret by done. done. }
      eapply reaches_trans; [exact (exec_reach body [] ts 0%nat (PMem X p o) _ _ X1 E0)|].
      set (ts2 := <[0%nat := None]> ts).
      assert (ts2 !! 1%nat = Some (Some (pwrite (M := packed_machine) (BOutput (j1 / 64)) w2))) as E1.
      { unfold ts2. rewrite list_lookup_insert_ne by done. rewrite Ets. apply list_lookup_insert. rewrite insert_length, replicate_length. lia. }
      assert (exec (M := packed_machine) (pwrite (M := packed_machine) (BOutput (j1 / 64)) w2) (PMem X p (BV (bv_len o) (<[(j1 / 64)%nat := w1]> (bv_blocks o)))) =
        Ret (tt, PMem X p o2)) as X2.
      { cbn [exec pwrite poke packed_machine pm_out pm_x pm_pol bv_blocks bv_len].
        rewrite vset_ret by (by rewrite insert_length). cbn [obind exec]. rewrite list_insert_insert. unfold pret. cbn [exec obind]. do 2 f_equal. f_equal.
        unfold bv_assign, bv_set, bv_clear in E2. rewrite <- Hblk in E2. unfold vget in E2. rewrite Eb in E2. cbn [obind] in E2.
        unfold w2. destruct (f j2); rewrite vset_ret in E2 by done; cbn [obind] in E2; by injection E2. }
      eapply reaches_trans; [exact (exec_reach body [] ts2 1%nat _ _ _ X2 E1)|].
      assert (<[1%nat:=None]> ts2 = replicate k None) as ->; [|apply reaches_refl].
      unfold ts2. rewrite Ets. apply list_eq. intros i. destruct (decide (i < k)%nat) as [Hi|Hi].
      + rewrite (lookup_replicate_2 k None i Hi). destruct (decide (i = 1%nat)) as [->|H1].
        * apply list_lookup_insert. rewrite !insert_length, replicate_length. lia.
        * rewrite list_lookup_insert_ne by done. destruct (decide (i = 0%nat)) as [->|H0].
          -- apply list_lookup_insert. rewrite !insert_length, replicate_length. lia.
          -- rewrite !list_lookup_insert_ne by done. by apply lookup_replicate_2.
      + rewrite !lookup_ge_None_2; [done| |]; rewrite ?insert_length, ?replicate_length; lia.
    - cbn [r_mem pm_out]. rewrite !bv_get_spec; [|lia|done|by apply Hlen|lia|done|rewrite Hl2, Hlo; by apply Hlen].
      rewrite Hb2, Hbit. by destruct (Nat.eqb_spec j1 j2).
  Qed.
End Packed.

(** the loop executed by one thread *)
Lemma packed_alone B X p f its o : (forall j, j ∈ its -> bw_clause B X p j = Ret (b2z (f j))) -> (forall j, j ∈ its -> (j < bv_len o)%nat) ->
  bv_wf 64 o -> exists o', one_by_one (packed_body B (bv_content_blocks 64 X)) its (PMem X p o) = Ret (PMem X p o') /\ bv_len o' = bv_len o /\
    forall q, (q < bv_len o)%nat -> bv_get 64 o' q = if decide (q ∈ its) then Ret (f q) else bv_get 64 o q.
Proof.
  intros Hf Hl Hw. destruct (packed_seq B X p f its o Hf Hl its o Hw eq_refl) as (o' & E & Hw' & Hl' & Hb); [done|].
  exists o'. split; [done|]. split; [done|]. intros q Hq. rewrite !bv_get_spec; [|lia|done|done|lia|done|by rewrite Hl'].
  rewrite Hb. by case_decide.
Qed.
