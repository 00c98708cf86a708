(** * Facts about concurrent predict calls on a regressor. *)
From Verif Require Export PropFacts ConcurrencyReg.
From Coq Require Import Permutation.
From stdpp Require Import list.
Local Open Scope Z_scope.

Section Threads.
  Context {R : rnd} (A : algo R) (s : tastate (a_pol A)) (n : nat) (T tile : Z).
  Context (weighted : bool) (maxw : Z).
  Notation ws := (ta_weights s).
  Context (Hw : weights_ok weighted maxw n ws) (Hm : 1 <= maxw <= int_max).
  Context (Hn : Z.of_nat n <= int_max) (HT : 0 <= T).
  Notation rstep := (rstep A s T tile).
  Notation rkstep := (rkstep A s T tile).
  Notation rrun_threads := (rrun_threads A s T tile).
  Notation clause x j := (a_clause_pruned A (tile_of tile) x s j).
  Notation votes v k := (total_votes k v (weight_of ws)).

  Definition response (v : nat -> bool) : Z := clamp 0 T (votes v n).
  Definition rgood (v : nat -> bool) (todo : list nat) (m : list Z) : Prop :=
    forall j, (j < n)%nat -> j ∉ todo -> m !! j = Some (b2z (v j)).
  (** the thread is on its way to the response for outputs [v] *)
  Definition rheading (v : nat -> bool) (t : rcall) (m : list Z) : Prop :=
    match t with
    | RInClauses todo => Forall (fun j => (j < n)%nat) todo /\ rgood v todo m
    | RInVotes j acc => (j <= n)%nat /\ rgood v [] m /\ acc = votes v j
    | RReturned l => l = response v
    end.
  Definition rclauses_left (t : rcall) : list nat := match t with RInClauses todo => todo | _ => [] end.
  Definition rleft (t : rcall) : nat :=
    match t with
    | RInClauses todo => length todo + 1 + n + 1
    | RInVotes j _ => n - j + 1
    | RReturned _ => 0
    end.

  (** adding one clause with output [b] *)
  Lemma rvote (m : list Z) j acc b : (j < n)%nat -> m !! j = Some (b2z b) -> 0 <= acc <= Z.of_nat j * maxw ->
    let acc' := acc + (if b then 1 + weight_of ws j else 0) in
    (let* val := vget m j in
     if Nat.eqb (length ws) 0 then ci64 (acc + val) else let* w := vget ws j in ci64 (acc + val * (1 + w))) = Ret acc' /\
    0 <= acc' <= Z.of_nat (S j) * maxw.
  Proof using Hw Hm Hn HT.
    intros Hj Eb Ha acc'. rewrite (vget_ret _ _ _ Eb). cbn [obind].
    destruct (weight_of_range weighted maxw n ws j Hw ltac:(lia)) as [Hw0 Hw1].
    assert (0 <= acc' <= Z.of_nat (S j) * maxw) as Hacc by (unfold acc'; destruct b; lia).
    assert (ci64 acc' = Ret acc') as Hci.
    { apply ci64_ret. assert (Z.of_nat (S j) * maxw <= 2147483647 * 2147483647); [|lia].
      clear Hacc Ha Hw0 Hw1. unfold int_max in *. apply Z.mul_le_mono_nonneg; lia. }
    split; [|done]. rewrite <- Hci. destruct (Nat.eqb_spec (length ws) 0) as [E0|E0].
    - unfold acc'. f_equal. apply length_zero_iff_nil in E0. rewrite E0. unfold weight_of. cbn. by destruct b.
    - unfold weights_ok in Hw. destruct weighted; [|by rewrite Hw in E0].
      destruct Hw as [El _]. destruct (vget_ret_lt ws j) as (wj & Ew & ->); [lia|]. cbn [obind]. f_equal. unfold acc', weight_of.
      rewrite Ew. cbn [default]. destruct b; cbn [b2z]; simpl; lia.
  Qed.
  Lemma votes_bound (v : nat -> bool) j : (j <= n)%nat -> 0 <= votes v j <= Z.of_nat j * maxw.
  Proof using Hw Hm Hn HT.
    intros Hj. apply total_votes_bound; [lia|]. intros; eapply weight_of_range; [done|lia].
  Qed.

  (** one step of a thread keeps it, and every other thread heading for the same outputs, on their way *)
  Lemma rstep_heading v x t m : length m = n -> rheading v t m -> (forall j, j ∈ rclauses_left t -> clause x j = Ret (b2z (v j))) ->
    exists t' m', rstep x t m = Ret (t', m') /\ length m' = n /\ rheading v t' m' /\
      (forall j, j ∈ rclauses_left t' -> j ∈ rclauses_left t) /\
      (forall u, rheading v u m -> rheading v u m') /\ rleft t' = (rleft t - 1)%nat.
  Proof using Hw Hm Hn HT.
    intros Lo Hh Hx. destruct t as [[|j todo]|j acc|lb]; cbn [rheading] in Hh.
    - destruct Hh as [_ Ho]. exists (RInVotes 0 0), m. split_and!; try done.
      + cbn [rheading]. split_and!; [lia|done|done].
      + cbn. lia.
    - destruct Hh as [Hf Ho]. apply Forall_cons in Hf as [Hj Hf]. cbn [ConcurrencyReg.rstep]. rewrite (Hx j) by (cbn; left). cbn [obind].
      rewrite vset_ret by lia. cbn [obind].
      assert (forall td, rgood v td m -> rgood v td (<[j:=b2z (v j)]> m)) as Hst.
      { intros td Ht k Hk Hnk. destruct (decide (k = j)) as [->|Hne]; [by rewrite list_lookup_insert by lia|].
        rewrite list_lookup_insert_ne by done. by apply Ht. }
      eexists _, _. split; [done|]. split; [by rewrite insert_length|]. split_and!.
      + cbn [rheading]. split; [done|]. intros k Hk Hnk. destruct (decide (k = j)) as [->|Hne]; [by rewrite list_lookup_insert by lia|].
        rewrite list_lookup_insert_ne by done. apply Ho; [done|]. by apply not_elem_of_cons.
      + cbn. intros k Hk. by right.
      + intros [td|j' ac|lb'] Hu; cbn [rheading] in *; try done.
        * destruct Hu as [? ?]. split; [done|]. by apply Hst.
        * destruct Hu as (? & ? & ?). split; [done|]. split; [by apply Hst|]. done.
      + cbn [rleft length]. lia.
    - destruct Hh as (Hj & Ho & ->). cbn [ConcurrencyReg.rstep]. rewrite Lo. destruct (Nat.ltb_spec j n) as [H|H].
      + destruct (rvote m j (votes v j) (v j) H (Ho j H (not_elem_of_nil _)) (votes_bound v j Hj)) as [E _]. cbn zeta in E.
        destruct (vget m j) as [val| | |]; try done. cbn [obind] in E |- *. rewrite E. cbn [obind].
        eexists _, _. split; [done|]. split; [done|]. split_and!; try done. cbn [rleft]. lia.
      + assert (j = n) as -> by lia. eexists _, _. split; [done|]. split; [done|]. split_and!; try done.
        * cbn [rheading]. unfold response. by rewrite clampZ_clamp by lia.
        * cbn [rleft]. lia.
    - exists (RReturned lb), m. split_and!; done.
  Qed.

  Definition rasks (v : nat -> bool) (x : a_smp A) : Prop := forall j, (j < n)%nat -> clause x j = Ret (b2z (v j)).

  (** a thread that runs alone finishes *)
  Lemma ralone v x : forall K (ts : list (a_smp A * rcall)) m k t, ts !! k = Some (x, t) -> length m = n -> rheading v t m ->
    (forall j, j ∈ rclauses_left t -> clause x j = Ret (b2z (v j))) -> (rleft t <= K)%nat ->
    exists m', rrun_threads (replicate K k) (ts, m) = Ret (<[k := (x, RReturned (response v))]> ts, m') /\ length m' = n.
  Proof using Hw Hm Hn HT.
    induction K as [|K IH]; intros ts m k t Ek Hs Hh Hx Hle.
    - assert (exists lb, t = RReturned lb) as [lb ->]. { destruct t as [td|j ac|lb]; [| |by eexists]; exfalso; unfold rleft in Hle; lia. }
      cbn [rheading] in Hh. subst lb. exists m. cbn. by rewrite list_insert_id.
    - cbn [replicate]. unfold ConcurrencyReg.rrun_threads. cbn [ofold]. unfold ConcurrencyReg.rkstep at 1. cbn [fst snd]. rewrite Ek.
      destruct (rstep_heading v x t m Hs Hh Hx) as (t' & m' & Ep & Hs' & Hh' & Hsub & _ & El). rewrite Ep. cbn [obind].
      destruct (IH (<[k:=(x,t')]> ts) m' k t') as (m'' & E & Hs''); try done.
      { apply list_lookup_insert. by eapply lookup_lt_Some. }
      { intros j Hj. apply Hx. by apply Hsub. }
      { lia. }
      exists m''. split; [|done]. unfold ConcurrencyReg.rrun_threads in E. rewrite E. by rewrite list_insert_insert.
  Qed.

  (** all threads ask about samples with the same outputs *)
  Definition rall_heading (v : nat -> bool) (c : rconfig A) : Prop :=
    length c.2 = n /\ forall k x t, c.1 !! k = Some (x, t) -> rasks v x /\ rheading v t c.2 /\ (forall j, j ∈ rclauses_left t -> (j < n)%nat).
  Lemma rsame_outputs v schedule c : rall_heading v c -> exists c', rrun_threads schedule c = Ret c' /\ rall_heading v c'.
  Proof using Hw Hm Hn HT.
    intros H. apply (ofold_total (rall_heading v)); [done|]. intros k [ts m] _ [Hs Ht]. unfold ConcurrencyReg.rkstep. cbn [fst snd] in *.
    destruct (ts !! k) as [[x t]|] eqn:Ek; [|by exists (ts, m)].
    destruct (Ht _ _ _ Ek) as (Ha & Hh & Hc).
    destruct (rstep_heading v x t m Hs Hh) as (t' & m' & Ep & Hs' & Hh' & Hsub & Hkeep & _).
    { intros j Hj. apply Ha. by apply Hc. }
    rewrite Ep. cbn [obind]. eexists. split; [done|]. split; [done|]. cbn [fst snd]. intros k' y u Eu.
    destruct (decide (k' = k)) as [->|Hne].
    - rewrite list_lookup_insert in Eu by (by eapply lookup_lt_Some). injection Eu as <- <-. split_and!; try done. intros j Hj. apply Hc. by apply Hsub.
    - rewrite list_lookup_insert_ne in Eu by done. destruct (Ht _ _ _ Eu) as (? & ? & ?). split_and!; try done. by apply Hkeep.
  Qed.

  (** any threads: accesses stay within the vector and the answer is some response *)
  Definition rsome (todo : list nat) (m : list Z) : Prop := forall j, (j < n)%nat -> j ∉ todo -> exists b, m !! j = Some (b2z b).
  Definition rsafe (t : rcall) (m : list Z) : Prop :=
    match t with
    | RInClauses todo => Forall (fun j => (j < n)%nat) todo /\ rsome todo m
    | RInVotes j acc => (j <= n)%nat /\ rsome [] m /\ 0 <= acc <= Z.of_nat j * maxw
    | RReturned l => 0 <= l <= T
    end.
  Lemma rstep_safe v x t m : length m = n -> rsafe t m -> rasks v x ->
    exists t' m', rstep x t m = Ret (t', m') /\ length m' = n /\ rsafe t' m' /\ (forall u, rsafe u m -> rsafe u m').
  Proof using Hw Hm Hn HT.
    intros Lo Hh Hx. destruct t as [[|j todo]|j acc|lb]; cbn [rsafe] in Hh.
    - destruct Hh as [_ Ho]. exists (RInVotes 0 0), m. split_and!; try done. cbn [rsafe]. split_and!; try done; lia.
    - destruct Hh as [Hf Ho]. apply Forall_cons in Hf as [Hj Hf]. cbn [ConcurrencyReg.rstep]. rewrite (Hx j) by done. cbn [obind].
      rewrite vset_ret by lia. cbn [obind].
      assert (forall td, rsome td m -> rsome td (<[j:=b2z (v j)]> m)) as Hst.
      { intros td Ht k Hk Hnk. destruct (decide (k = j)) as [->|Hne]; [rewrite list_lookup_insert by lia; eauto|].
        rewrite list_lookup_insert_ne by done. by apply Ht. }
      eexists _, _. split; [done|]. split; [by rewrite insert_length|]. split.
      + cbn [rsafe]. split; [done|]. intros k Hk Hnk. destruct (decide (k = j)) as [->|Hne]; [rewrite list_lookup_insert by lia; eauto|].
        rewrite list_lookup_insert_ne by done. apply Ho; [done|]. by apply not_elem_of_cons.
      + intros [td|j' ac|lb'] Hu; cbn [rsafe] in *; try done.
        * destruct Hu as [? ?]. split; [done|]. by apply Hst.
        * destruct Hu as (? & ? & ?). split; [done|]. split; [by apply Hst|]. done.
    - destruct Hh as (Hj & Ho & Ha). cbn [ConcurrencyReg.rstep]. rewrite Lo. destruct (Nat.ltb_spec j n) as [H|H].
      + destruct (Ho j H (not_elem_of_nil _)) as (b & Eb). destruct (rvote m j acc b H Eb Ha) as [E Hacc]. cbn zeta in E.
        destruct (vget m j) as [val| | |]; try done. cbn [obind] in E |- *. rewrite E. cbn [obind].
        eexists _, _. split; [done|]. split; [done|]. split; [|done]. cbn [rsafe]. split_and!; try done; lia.
      + eexists _, _. split; [done|]. split; [done|]. split; [|done]. cbn [rsafe]. rewrite clampZ_clamp by lia. unfold clamp. lia.
    - exists (RReturned lb), m. split_and!; done.
  Qed.
  Definition rall_safe (c : rconfig A) : Prop :=
    length c.2 = n /\ forall k x t, c.1 !! k = Some (x, t) -> (exists v, rasks v x) /\ rsafe t c.2.
  Lemma rany_safe schedule c : rall_safe c -> exists c', rrun_threads schedule c = Ret c' /\ rall_safe c' /\
    (forall k, k ∉ schedule -> c'.1 !! k = c.1 !! k) /\ (forall k, fst <$> c'.1 !! k = fst <$> c.1 !! k).
  Proof using Hw Hm Hn HT.
    revert c. induction schedule as [|k schedule IH]; intros [ts m] H; [by exists (ts, m)|].
    destruct H as [Hs Ht]. unfold ConcurrencyReg.rrun_threads. cbn [ofold]. unfold ConcurrencyReg.rkstep at 1. cbn [fst snd] in *.
    destruct (ts !! k) as [[x t]|] eqn:Ek.
    - destruct (Ht _ _ _ Ek) as ((v & Ha) & Hh).
      destruct (rstep_safe v x t m Hs Hh Ha) as (t' & m' & Ep & Hs' & Hh' & Hkeep). rewrite Ep. cbn [obind].
      destruct (IH (<[k:=(x,t')]> ts, m')) as (c' & E & Hc & Hn1 & Hn2).
      { split; [done|]. cbn [fst snd]. intros k' y u Eu. destruct (decide (k' = k)) as [->|Hne].
        - rewrite list_lookup_insert in Eu by (by eapply lookup_lt_Some). injection Eu as <- <-. split; [by exists v|done].
        - rewrite list_lookup_insert_ne in Eu by done. destruct (Ht _ _ _ Eu) as (? & ?). split; [done|]. by apply Hkeep. }
      exists c'. split; [exact E|]. split; [done|]. cbn [fst] in *. split.
      + intros k' Hk'. apply not_elem_of_cons in Hk' as [Hne Hk']. rewrite Hn1 by done. by rewrite list_lookup_insert_ne.
      + intros k'. rewrite Hn2. destruct (decide (k' = k)) as [->|Hne].
        * rewrite list_lookup_insert by (by eapply lookup_lt_Some). by rewrite Ek.
        * by rewrite list_lookup_insert_ne.
    - cbn [obind]. destruct (IH (ts, m)) as (c' & E & Hc & Hn1 & Hn2); [done|]. exists c'. split; [exact E|]. split; [done|].
      split; [|done]. intros k' Hk'. apply not_elem_of_cons in Hk' as [Hne Hk']. by apply Hn1.
  Qed.

  (** ** Bad interleavings of two calls *)
  Definition rmixed (sel : nat -> bool) (v1 v2 : nat -> bool) (j : nat) : bool := if sel j then v1 j else v2 j.
  Definition rlockstep (sel : nat -> bool) (order : list nat) : list nat :=
    concat (map (fun j => if sel j then [1; 0] else [0; 1])%nat order).
  Lemma rlockstep_run sel v1 v2 x1 x2 : rasks v1 x1 -> rasks v2 x2 -> forall order m, Forall (fun j => (j < n)%nat) order -> NoDup order ->
    length m = n -> rgood (rmixed sel v1 v2) order m ->
    exists m', rrun_threads (rlockstep sel order) ([(x1, RInClauses order); (x2, RInClauses order)], m) =
      Ret ([(x1, RInClauses []); (x2, RInClauses [])], m') /\ length m' = n /\ rgood (rmixed sel v1 v2) [] m'.
  Proof using Hw Hm Hn HT.
    intros H1 H2. induction order as [|j order IH]; intros m Hf Hnd Hs Ho; [by exists m|].
    apply Forall_cons in Hf as [Hj Hf]. apply NoDup_cons in Hnd as [Hnj Hnd].
    assert (forall f b1 b2, b2 = rmixed sel v1 v2 j -> f = <[j:=b2z b2]> (<[j:=b2z b1]> m) ->
      exists m', rrun_threads (rlockstep sel order) ([(x1, RInClauses order); (x2, RInClauses order)], f) =
      Ret ([(x1, RInClauses []); (x2, RInClauses [])], m') /\ length m' = n /\ rgood (rmixed sel v1 v2) [] m') as Hgo.
    { intros f b1 b2 -> ->. rewrite list_insert_insert. apply IH; [done|done| |].
      - by rewrite insert_length.
      - intros k Hk Hnk. destruct (decide (k = j)) as [->|Hne]; [by rewrite list_lookup_insert by lia|].
        rewrite list_lookup_insert_ne by done. apply Ho; [done|]. by apply not_elem_of_cons. }
    unfold rlockstep. cbn [map concat]. unfold ConcurrencyReg.rrun_threads. rewrite ofold_app.
    unfold rmixed in Hgo. destruct (sel j) eqn:Esel; cbn [ofold]; unfold ConcurrencyReg.rkstep at 1 2; cbn [fst snd lookup list_lookup insert list_insert alter];
      rewrite ?(H1 j Hj), ?(H2 j Hj); cbn [obind ConcurrencyReg.rstep]; rewrite ?(H1 j Hj), ?(H2 j Hj); cbn [obind]; rewrite vset_ret by lia; cbn [obind fst snd lookup list_lookup insert list_insert ConcurrencyReg.rstep];
      rewrite ?(H1 j Hj), ?(H2 j Hj); cbn [obind]; rewrite vset_ret by (rewrite insert_length; lia); cbn [obind insert list_insert].
    - eapply (Hgo _ (v2 j) (v1 j)); done.
    - eapply (Hgo _ (v1 j) (v2 j)); done.
  Qed.
  Lemma rclauses_run v x : rasks v x -> forall order ts k m, ts !! k = Some (x, RInClauses order) -> Forall (fun j => (j < n)%nat) order ->
    length m = n -> exists m', rrun_threads (replicate (length order) k) (ts, m) = Ret (<[k := (x, RInClauses [])]> ts, m') /\ length m' = n /\
      (forall td, rgood v td m -> rgood v td m') /\ (forall j, j ∈ order -> m' !! j = Some (b2z (v j))).
  Proof using Hw Hm Hn HT.
    intros Hx. induction order as [|j order IH]; intros ts k m Ek Hf Hs.
    - exists m. cbn. rewrite list_insert_id by done. split_and!; try done. intros j Hj. by apply elem_of_nil in Hj.
    - apply Forall_cons in Hf as [Hj Hf]. cbn [length replicate]. unfold ConcurrencyReg.rrun_threads. cbn [ofold]. unfold ConcurrencyReg.rkstep at 1.
      cbn [fst snd]. rewrite Ek. cbn [ConcurrencyReg.rstep]. rewrite (Hx j Hj). cbn [obind]. rewrite vset_ret by lia. cbn [obind].
      destruct (IH (<[k:=(x, RInClauses order)]> ts) k (<[j:=b2z (v j)]> m)) as (m' & E & Hs' & Hk & Ho).
      { apply list_lookup_insert. by eapply lookup_lt_Some. } { done. } { by rewrite insert_length. }
      exists m'. rewrite list_insert_insert in E. split; [exact E|]. split; [done|].
      assert (forall td, rgood v td m -> rgood v td m') as Hg.
      { intros td Ht. apply Hk. intros i Hi Hni. destruct (decide (i = j)) as [->|Hne]; [by rewrite list_lookup_insert by lia|].
        rewrite list_lookup_insert_ne by done. by apply Ht. }
      split; [exact Hg|]. intros i Hi. apply elem_of_cons in Hi as [->|Hi]; [|by apply Ho].
      destruct (decide (j ∈ order)) as [Hin|Hnin]; [by apply Ho|].
      apply (Hk (filter (fun i => i <> j) (seq 0 n))); [|done|].
      + intros i Hi Hni. destruct (decide (i = j)) as [->|Hne]; [by rewrite list_lookup_insert by lia|].
        exfalso. apply Hni. apply elem_of_list_filter. split; [done|]. apply elem_of_seq. lia.
      + intros Hin%elem_of_list_filter. by destruct Hin.
  Qed.
End Threads.
