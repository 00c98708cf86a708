(** * Facts about concurrent predict calls. *)
From Verif Require Export PropFacts Concurrency.
From Coq Require Import Permutation.
From stdpp Require Import list.
Local Open Scope Z_scope.

Lemma first_max_one v : first_max [v] 0.
Proof.
  exists v. split; [done|]. split; [|intros; lia]. intros [|i] u E; simpl in E; [injection E as ->; lia|done].
Qed.
Lemma first_max_step (l : list Z) i best b v : first_max (take i l) best -> l !! best = Some b -> l !! i = Some v ->
  first_max (take (S i) l) (if b <? v then i else best).
Proof.
  intros (b' & Eb' & Hle & Hlt) Eb Ev. rewrite (take_S_r _ _ _ Ev).
  assert (length (take i l) = i) as El by (apply take_length_le; apply lookup_lt_Some in Ev; lia).
  pose proof (lookup_lt_Some _ _ _ Eb') as Hb. rewrite El in Hb.
  rewrite lookup_take in Eb' by done. rewrite Eb in Eb'. injection Eb' as <-.
  destruct (Z.ltb_spec b v) as [H|H].
  - exists v. split; [rewrite lookup_app_r, El, Nat.sub_diag by lia; done|]. split.
    + intros k u Ek. destruct (decide (k < i)%nat) as [Hk|Hk];
        [rewrite lookup_app_l in Ek by lia; apply Hle in Ek; lia|
         rewrite lookup_app_r, El in Ek by lia; apply list_lookup_singleton_Some in Ek as [_ <-]; lia].
    + intros k u Hk Ek. rewrite lookup_app_l in Ek by lia. apply Hle in Ek. lia.
  - exists b. split; [rewrite lookup_app_l by lia; rewrite lookup_take by done; done|]. split.
    + intros k u Ek. destruct (decide (k < i)%nat) as [Hk|Hk].
      * rewrite lookup_app_l in Ek by lia. by apply Hle in Ek.
      * rewrite lookup_app_r, El in Ek by lia. apply list_lookup_singleton_Some in Ek as [_ <-]. lia.
    + intros k u Hk Ek. rewrite lookup_app_l in Ek by lia. by eapply Hlt.
Qed.

Section Threads.
  Context {R : rnd} (A : algo R) (s : tastate (a_pol A)) (L opl : nat) (T tile : Z).
  Context (weighted : bool) (maxw : Z).
  Notation n := (L * opl)%nat.
  Notation ws := (ta_weights s).
  Context (Hw : weights_ok weighted maxw n ws) (Hm : 1 <= maxw <= int_max) (He : Nat.even opl = true).
  Context (Hn : Z.of_nat n <= int_max) (HT : 0 <= T) (HL : (1 <= L)%nat).
  Notation pstep := (pstep A s L opl T tile).
  Notation kstep := (kstep A s L opl T tile).
  Notation run_threads := (run_threads A s L opl T tile).
  Notation clause x j := (a_clause_pruned A (tile_of tile) x s j).

  Definition total (v : nat -> bool) (l : nat) : Z :=
    clamp (- T) T (signed_votes opl (fun j => v (l * opl + j)%nat) (fun j => weight_of ws (l * opl + j))).
  Definition totals (v : nat -> bool) : list Z := map (total v) (seq 0 L).
  Lemma totals_len v : length (totals v) = L.
  Proof using. unfold totals. by rewrite map_length, seq_length. Qed.
  Lemma totals_at v l : (l < L)%nat -> totals v !! l = Some (total v l).
  Proof using.
    intros H. unfold totals. rewrite list_lookup_fmap, lookup_seq_lt by done. done.
  Qed.

  Definition sized (m : shared) : Prop := length (sh_out m) = n /\ length (sh_sum m) = L.
  Definition good_out (v : nat -> bool) (todo : list nat) (m : shared) : Prop :=
    forall j, (j < n)%nat -> j ∉ todo -> sh_out m !! j = Some (b2z (v j)).
  Definition good_sum (v : nat -> bool) (l : nat) (m : shared) : Prop :=
    forall k, (k < l)%nat -> sh_sum m !! k = Some (total v k).
  (** the thread is on its way to the votes of outputs [v] *)
  Definition heading (v : nat -> bool) (t : pcall) (m : shared) : Prop :=
    match t with
    | InClauses todo => Forall (fun j => (j < n)%nat) todo /\ good_out v todo m
    | InVotes l todo acc => (l < L)%nat /\ good_out v [] m /\ good_sum v l m /\ exists k, (k <= opl)%nat /\
        todo = seq (l * opl + k) (opl - k) /\
        acc = signed_votes k (fun j => v (l * opl + j)%nat) (fun j => weight_of ws (l * opl + j))
    | InMax best i => good_out v [] m /\ good_sum v L m /\ (1 <= i <= L)%nat /\ first_max (take i (totals v)) best
    | Returned l => l = Z.of_nat (argmax (totals v))
    end.
  Definition clauses_left (t : pcall) : list nat := match t with InClauses todo => todo | _ => [] end.
  (** number of steps a thread still has to make *)
  Definition left (t : pcall) : nat :=
    match t with
    | InClauses todo => length todo + 1 + L * (opl + 1) + L
    | InVotes l todo _ => length todo + 1 + (L - S l) * (opl + 1) + L
    | InMax _ i => L - i + 1
    | Returned _ => 0
    end.

  Lemma good_out_grow v todo m : good_out v [] m -> good_out v todo m.
  Proof using. intros H k Hk _. apply H; [done|]. apply not_elem_of_nil. Qed.

  Lemma heading_enter v l m : (l <= L)%nat -> good_out v [] m -> good_sum v l m -> heading v (enter_label L opl l) m.
  Proof using Hw Hm He Hn HT HL.
    intros Hl Ho Hs. unfold enter_label. destruct (Nat.ltb_spec l L) as [H|H].
    - cbn [heading]. split_and!; try done. exists 0%nat. split; [lia|]. split; [|done]. by rewrite Nat.add_0_r, Nat.sub_0_r.
    - assert (l = L) as -> by lia. cbn [heading]. split_and!; try done.
      pose proof (totals_len v) as E. destruct (totals v) as [|z zs]; [cbn in E; lia|]. cbn [take]. apply first_max_one.
  Qed.
  Lemma left_enter l : (l <= L)%nat -> left (enter_label L opl l) = ((L - l) * (opl + 1) + L)%nat.
  Proof using Hw Hm He Hn HT HL.
    intros Hl. unfold enter_label. destruct (Nat.ltb_spec l L) as [H|H]; cbn [left].
    - rewrite seq_length. replace (L - l)%nat with (S (L - S l)) by lia. cbn [Nat.mul]. lia.
    - replace (L - l)%nat with 0%nat by lia. lia.
  Qed.
  Lemma vote_step (v : nat -> bool) l k m : (l < L)%nat -> (k < opl)%nat -> good_out v [] m ->
    let f := fun j => v (l * opl + j)%nat in let w := fun j => weight_of ws (l * opl + j) in
    (let* val := vget (sh_out m) (l * opl + k) in
     if negb (Nat.eqb (length ws) 0) then
       let* u := vget ws (l * opl + k) in
       ci64 (signed_votes k f w + (if Nat.even (l * opl + k) then val * (1 + u) else - val * (1 + u)))
     else ci64 (signed_votes k f w + (if Nat.even (l * opl + k) then val else - val)))
    = Ret (signed_votes (S k) f w).
  Proof using Hw Hm He Hn HT HL.
    intros Hl Hk Ho f w. assert (l * opl + k < n)%nat as Hj by nia.
    rewrite (vget_ret _ _ _ (Ho _ Hj (not_elem_of_nil _))). cbn [obind].
    assert (Nat.even (l * opl + k) = Nat.even k) as ->.
    { rewrite Nat.even_add, Nat.even_mul, He, orb_true_r. by destruct (Nat.even k). }
    assert (ci64 (signed_votes (S k) f w) = Ret (signed_votes (S k) f w)) as Hc.
    { apply ci64_ret. pose proof (signed_votes_bound (S k) f w maxw ltac:(lia)) as HB.
      feed specialize HB; [intros; eapply weight_of_range; [done|nia]|].
      assert (Z.of_nat (S k) * maxw <= 2147483647 * 2147483647); [|lia].
      assert (Datatypes.S k <= n)%nat by nia. clear HB. unfold int_max in *. apply Z.mul_le_mono_nonneg; lia. }
    destruct (Nat.eqb_spec (length ws) 0) as [E0|E0]; cbn [negb].
    - rewrite <- Hc. f_equal. cbn [signed_votes]. unfold w, f. apply length_zero_iff_nil in E0. rewrite E0. unfold weight_of. cbn.
      f_equal. by destruct (v _), (Nat.even k).
    - unfold weights_ok in Hw. destruct weighted; [|by rewrite Hw in E0].
      destruct Hw as [El _]. destruct (vget_ret_lt ws (l * opl + k)) as (wj & Ew & ->); [lia|]. cbn [obind].
      rewrite <- Hc. f_equal. cbn [signed_votes]. unfold w, f, weight_of. rewrite Ew. cbn [default].
      f_equal. destruct (v _), (Nat.even k); cbn [b2z]; simpl; lia.
  Qed.

  (** one step of a thread keeps it, and every other thread heading for the same outputs, on their way *)
  Lemma pstep_heading v x t m : sized m -> heading v t m -> (forall j, j ∈ clauses_left t -> clause x j = Ret (b2z (v j))) ->
    exists t' m', pstep x t m = Ret (t', m') /\ sized m' /\ heading v t' m' /\
      (forall j, j ∈ clauses_left t' -> j ∈ clauses_left t) /\
      (forall u, heading v u m -> heading v u m') /\ left t' = (left t - 1)%nat.
  Proof using Hw Hm He Hn HT HL.
    intros [Lo Ls] Hh Hx. destruct t as [[|j todo]|l [|j todo] acc|best i|lb]; cbn [heading] in Hh.
    - (* end of clauses *)
      destruct Hh as [_ Ho]. exists (enter_label L opl 0), m. split_and!; try done.
      + apply heading_enter; [lia|done|]. intros k Hk. lia.
      + unfold enter_label. destruct (_ <? _)%nat; cbn; by intros ? ?%elem_of_nil.
      + rewrite left_enter by lia. cbn [left]. cbn [length]. lia.
    - (* a clause *)
      destruct Hh as [Hf Ho]. apply Forall_cons in Hf as [Hj Hf]. cbn [pstep]. rewrite (Hx j) by (cbn; left). cbn [obind].
      rewrite vset_ret by lia. cbn [obind].
      assert (forall v' td, good_out v td m -> v' = b2z (v j) -> good_out v td (Shared (<[j:=v']> (sh_out m)) (sh_sum m))) as Hst.
      { intros v' td Ht -> k Hk Hnk. cbn. destruct (decide (k = j)) as [->|Hne]; [by rewrite list_lookup_insert by lia|].
        rewrite list_lookup_insert_ne by done. by apply Ht. }
      eexists _, _. split; [done|]. split; [split; cbn; [by rewrite insert_length|done]|]. split_and!.
      + cbn [heading]. split; [done|]. intros k Hk Hnk. cbn. destruct (decide (k = j)) as [->|Hne]; [by rewrite list_lookup_insert by lia|].
        rewrite list_lookup_insert_ne by done. apply Ho; [done|]. apply not_elem_of_cons. done.
      + cbn. intros k Hk. by right.
      + intros [td|l' td ac|b' i'|lb'] Hu; cbn [heading] in *; try done.
        * destruct Hu as [? ?]. split; [done|]. by apply Hst.
        * destruct Hu as (? & ? & ? & ?). split; [done|]. split; [by apply Hst|]. done.
        * destruct Hu as (? & ? & ?). split; [by apply Hst|]. done.
      + cbn [left length]. lia.
    - (* store a sum *)
      destruct Hh as (Hl & Ho & Hs & k & Hk & Et & ->).
      assert (k = opl) as ->. { apply (f_equal length) in Et. rewrite seq_length in Et. cbn in Et. lia. }
      cbn [pstep]. rewrite vset_ret by lia. cbn [obind]. rewrite clampZ_clamp by lia. fold (total v l).
      assert (forall lim, good_sum v lim m -> good_sum v lim (Shared (sh_out m) (<[l:=total v l]> (sh_sum m)))) as Hst.
      { intros lim Ht k Hlt. cbn. destruct (decide (k = l)) as [->|Hne]; [by rewrite list_lookup_insert by lia|].
        rewrite list_lookup_insert_ne by done. by apply Ht. }
      eexists _, _. split; [done|]. split; [split; cbn; [done|by rewrite insert_length]|]. split_and!.
      + apply heading_enter; [lia|done|]. intros k' Hk'. destruct (decide (k' = l)) as [->|Hne].
        * cbn. by rewrite list_lookup_insert by lia.
        * apply (Hst l); [done|]. lia.
      + unfold enter_label. destruct (_ <? _)%nat; cbn; by intros ? ?%elem_of_nil.
      + intros [td|l' td ac|b' i'|lb'] Hu; cbn [heading] in *; try done.
        * destruct Hu as (? & ? & ? & ?). split; [done|]. split; [done|]. split; [by apply Hst|done].
        * destruct Hu as (? & ? & ?). split; [done|]. split; [by apply Hst|done].
      + rewrite left_enter by lia. cbn [left length]. generalize ((L - Datatypes.S l) * (opl + 1))%nat. clear. intros; lia.
    - (* add a clause *)
      destruct Hh as (Hl & Ho & Hs & k & Hk & Et & ->).
      assert (k < opl)%nat as Hk'. { apply (f_equal length) in Et. rewrite seq_length in Et. cbn in Et. lia. }
      replace (opl - k)%nat with (S (opl - S k)) in Et by lia. cbn [seq] in Et. injection Et as -> ->.
      cbn [pstep]. pose proof (vote_step v l k m Hl Hk' Ho) as Hv. cbn zeta in Hv.
      destruct (vget (sh_out m) (l * opl + k)) as [val| | |]; try done. cbn [obind] in Hv |- *. rewrite Hv. cbn [obind].
      eexists _, _. split; [done|]. split; [done|]. split_and!; try done.
      + cbn [heading]. split_and!; try done. exists (S k). split; [lia|]. split; [|done]. f_equal; lia.
      + cbn [left length]. generalize ((L - Datatypes.S l) * (opl + 1))%nat. clear. intros; lia.
    - (* max *)
      destruct Hh as (Ho & Hs & Hi & Hf). cbn [pstep]. rewrite Ls. destruct (Nat.ltb_spec i L) as [H|H].
      + assert (best < L)%nat as Hb. { apply first_max_lt in Hf. rewrite take_length, totals_len in Hf. lia. }
        rewrite (vget_ret _ _ _ (Hs best Hb)), (vget_ret _ _ _ (Hs i H)). cbn [obind].
        eexists _, _. split; [done|]. split; [done|]. split_and!; try done.
        * cbn [heading]. split_and!; try done; [lia|]. by apply first_max_step; [|apply totals_at..].
        * cbn [left]. lia.
      + assert (i = L) as -> by lia. eexists _, _. split; [done|]. split; [done|]. split_and!; try done.
        * cbn [heading]. f_equal. rewrite take_ge in Hf by (rewrite totals_len; lia). eapply first_max_unique; [exact Hf|].
          apply argmax_spec. intros E. pose proof (totals_len v) as E'. rewrite E in E'. cbn in E'. lia.
        * cbn [left]. lia.
    - exists (Returned lb), m. split_and!; done.
  Qed.

  (** ** Many threads *)
  Definition asks (v : nat -> bool) (x : a_smp A) : Prop := forall j, (j < n)%nat -> clause x j = Ret (b2z (v j)).

  (** a thread that runs alone finishes, with the votes it was heading for *)
  Lemma alone_aux v x : forall K (ts : list (a_smp A * pcall)) m k t, ts !! k = Some (x, t) -> sized m -> heading v t m ->
    (forall j, j ∈ clauses_left t -> clause x j = Ret (b2z (v j))) -> (left t <= K)%nat ->
    exists m', run_threads (replicate K k) (ts, m) = Ret (<[k := (x, Returned (Z.of_nat (argmax (totals v))))]> ts, m') /\ sized m'.
  Proof using Hw Hm He Hn HT HL.
    induction K as [|K IH]; intros ts m k t Ek Hs Hh Hx Hle.
    - assert (exists lb, t = Returned lb) as [lb ->].
      { destruct t as [td|l td ac|b i|lb]; [| | |by eexists]; exfalso; unfold left in Hle.
        - revert Hle. generalize (L * (opl + 1))%nat. clear. intros; lia.
        - revert Hle. generalize ((L - Datatypes.S l) * (opl + 1))%nat. clear. intros; lia.
        - clear - Hle. lia. }
      cbn [heading] in Hh. subst lb. exists m. cbn. by rewrite list_insert_id.
    - cbn [replicate]. unfold run_threads. cbn [ofold]. unfold kstep at 1. cbn [fst snd]. rewrite Ek.
      destruct (pstep_heading v x t m Hs Hh Hx) as (t' & m' & Ep & Hs' & Hh' & Hsub & _ & El). rewrite Ep. cbn [obind].
      destruct (IH (<[k:=(x,t')]> ts) m' k t') as (m'' & E & Hs''); try done.
      { apply list_lookup_insert. by eapply lookup_lt_Some. }
      { intros j Hj. apply Hx. by apply Hsub. }
      { lia. }
      exists m''. split; [|done]. unfold run_threads in E. rewrite E. by rewrite list_insert_insert.
  Qed.

  (** ** All threads ask about samples with the same outputs *)
  Definition all_heading (v : nat -> bool) (c : pconfig A) : Prop :=
    sized c.2 /\ forall k x t, c.1 !! k = Some (x, t) -> asks v x /\ heading v t c.2 /\ (forall j, j ∈ clauses_left t -> (j < n)%nat).
  Lemma same_outputs v schedule c : all_heading v c -> exists c', run_threads schedule c = Ret c' /\ all_heading v c'.
  Proof using Hw Hm He Hn HT HL.
    intros H. apply (ofold_total (all_heading v)); [done|]. intros k [ts m] _ [Hs Ht]. unfold kstep. cbn [fst snd] in *.
    destruct (ts !! k) as [[x t]|] eqn:Ek; [|by exists (ts, m)].
    destruct (Ht _ _ _ Ek) as (Ha & Hh & Hc).
    destruct (pstep_heading v x t m Hs Hh) as (t' & m' & Ep & Hs' & Hh' & Hsub & Hkeep & _).
    { intros j Hj. apply Ha. by apply Hc. }
    rewrite Ep. cbn [obind]. eexists. split; [done|]. split; [done|]. cbn [fst snd]. intros k' y u Eu.
    destruct (decide (k' = k)) as [->|Hne].
    - rewrite list_lookup_insert in Eu by (by eapply lookup_lt_Some). injection Eu as <- <-. split_and!; try done. intros j Hj. apply Hc. by apply Hsub.
    - rewrite list_lookup_insert_ne in Eu by done. destruct (Ht _ _ _ Eu) as (? & ? & ?). split_and!; try done. by apply Hkeep.
  Qed.

  (** ** Any threads: memory accesses stay within the vectors and the answer is some label *)
  Definition some_out (todo : list nat) (m : shared) : Prop :=
    forall j, (j < n)%nat -> j ∉ todo -> exists b, sh_out m !! j = Some (b2z b).
  Definition safe (t : pcall) (m : shared) : Prop :=
    match t with
    | InClauses todo => Forall (fun j => (j < n)%nat) todo /\ some_out todo m
    | InVotes l todo acc => (l < L)%nat /\ some_out [] m /\ exists k, (k <= opl)%nat /\
        todo = seq (l * opl + k) (opl - k) /\ - (Z.of_nat k * maxw) <= acc <= Z.of_nat k * maxw
    | InMax best i => (best < i)%nat /\ (i <= L)%nat
    | Returned l => 0 <= l < Z.of_nat L
    end.
  Lemma safe_enter l m : some_out [] m -> safe (enter_label L opl l) m.
  Proof using Hw Hm He Hn HT HL.
    intros Ho. unfold enter_label. destruct (Nat.ltb_spec l L) as [H|H]; cbn [safe].
    - split_and!; try done. exists 0%nat. rewrite Nat.add_0_r, Nat.sub_0_r. split_and!; try done; lia.
    - lia.
  Qed.
  Lemma pstep_safe v x t m : sized m -> safe t m -> asks v x ->
    exists t' m', pstep x t m = Ret (t', m') /\ sized m' /\ safe t' m' /\ (forall u, safe u m -> safe u m').
  Proof using Hw Hm He Hn HT HL.
    intros [Lo Ls] Hh Hx. destruct t as [[|j todo]|l [|j todo] acc|best i|lb]; cbn [safe] in Hh.
    - destruct Hh as [_ Ho]. exists (enter_label L opl 0), m. split_and!; try done. by apply safe_enter.
    - destruct Hh as [Hf Ho]. apply Forall_cons in Hf as [Hj Hf]. cbn [pstep]. rewrite (Hx j) by done. cbn [obind].
      rewrite vset_ret by lia. cbn [obind].
      assert (forall td, some_out td m -> some_out td (Shared (<[j:=b2z (v j)]> (sh_out m)) (sh_sum m))) as Hst.
      { intros td Ht k Hk Hnk. cbn. destruct (decide (k = j)) as [->|Hne]; [rewrite list_lookup_insert by lia; eauto|].
        rewrite list_lookup_insert_ne by done. by apply Ht. }
      eexists _, _. split; [done|]. split; [split; cbn; [by rewrite insert_length|done]|]. split.
      + cbn [safe]. split; [done|]. intros k Hk Hnk. cbn. destruct (decide (k = j)) as [->|Hne]; [rewrite list_lookup_insert by lia; eauto|].
        rewrite list_lookup_insert_ne by done. apply Ho; [done|]. apply not_elem_of_cons. done.
      + intros [td|l' td ac|b' i'|lb'] Hu; cbn [safe] in *; try done.
        * destruct Hu as [? ?]. split; [done|]. by apply Hst.
        * destruct Hu as (? & ? & ?). split; [done|]. split; [by apply Hst|]. done.
    - destruct Hh as (Hl & Ho & k & Hk & Et & Ha). cbn [pstep]. rewrite vset_ret by lia. cbn [obind].
      eexists _, _. split; [done|]. split; [split; cbn; [done|by rewrite insert_length]|]. split; [by apply safe_enter|].
      by intros [td|l' td ac|b' i'|lb'] Hu.
    - destruct Hh as (Hl & Ho & k & Hk & Et & Ha).
      assert (k < opl)%nat as Hk'. { apply (f_equal length) in Et. rewrite seq_length in Et. cbn in Et. lia. }
      replace (opl - k)%nat with (S (opl - S k)) in Et by lia. cbn [seq] in Et. injection Et as -> ->.
      assert (l * opl + k < n)%nat as Hj by nia. destruct (Ho _ Hj (not_elem_of_nil _)) as (b & Eb).
      cbn [pstep]. rewrite (vget_ret _ _ _ Eb). cbn [obind].
      destruct (weight_of_range weighted maxw n ws (l * opl + k) Hw ltac:(lia)) as [Hw0 Hw1].
      set (w := weight_of ws (l * opl + k)) in *.
      assert (exists d, - maxw <= d <= maxw /\
        (if negb (Nat.eqb (length ws) 0) then
           let* w := vget ws (l * opl + k) in
           ci64 (acc + (if Nat.even (l * opl + k) then b2z b * (1 + w) else - b2z b * (1 + w)))
         else ci64 (acc + (if Nat.even (l * opl + k) then b2z b else - b2z b))) = ci64 (acc + d)) as (d & Hd & Ed).
      { destruct (Nat.eqb_spec (length ws) 0) as [E0|E0]; cbn [negb].
        - eexists. split; [|done]. destruct (Nat.even (l * opl + k)), b; cbn [b2z]; lia.
        - unfold weights_ok in Hw. destruct weighted; [|by rewrite Hw in E0].
          destruct Hw as [El _]. destruct (vget_ret_lt ws (l * opl + k)) as (wj & Ew & ->); [lia|]. cbn [obind].
          assert (w = wj) as <- by (unfold w, weight_of; by rewrite Ew).
          eexists. split; [|done]. destruct (Nat.even (l * opl + k)), b; cbn [b2z]; lia. }
      rewrite Ed. assert (- (Z.of_nat (Datatypes.S k) * maxw) <= acc + d <= Z.of_nat (Datatypes.S k) * maxw) as Hacc by lia.
      rewrite ci64_ret.
      2:{ assert (Z.of_nat (Datatypes.S k) * maxw <= 2147483647 * 2147483647); [|lia].
          assert (Datatypes.S k <= n)%nat by nia. clear Ha Hacc Hd Ed. unfold int_max in *. apply Z.mul_le_mono_nonneg; lia. }
      cbn [obind]. eexists _, _. split; [done|]. split; [done|]. split; [|done].
      cbn [safe]. split_and!; try done. exists (Datatypes.S k). split; [lia|]. split; [f_equal; lia|]. done.
    - destruct Hh as [Hb Hi]. cbn [pstep]. rewrite Ls. destruct (Nat.ltb_spec i L) as [H|H].
      + destruct (vget_ret_lt (sh_sum m) best) as (b & _ & ->); [lia|]. destruct (vget_ret_lt (sh_sum m) i) as (w & _ & ->); [lia|].
        cbn [obind]. eexists _, _. split; [done|]. split; [done|]. split; [|done]. cbn [safe]. destruct (b <? w); lia.
      + eexists _, _. split; [done|]. split; [done|]. split; [|done]. cbn [safe]. lia.
    - exists (Returned lb), m. split_and!; done.
  Qed.
  Definition all_safe (c : pconfig A) : Prop :=
    sized c.2 /\ forall k x t, c.1 !! k = Some (x, t) -> (exists v, asks v x) /\ safe t c.2.
  Lemma any_safe schedule c : all_safe c -> exists c', run_threads schedule c = Ret c' /\ all_safe c' /\
    (forall k, k ∉ schedule -> c'.1 !! k = c.1 !! k) /\ (forall k, fst <$> c'.1 !! k = fst <$> c.1 !! k).
  Proof using Hw Hm He Hn HT HL.
    revert c. induction schedule as [|k schedule IH]; intros [ts m] H; [by exists (ts, m)|].
    destruct H as [Hs Ht]. unfold run_threads. cbn [ofold]. unfold kstep at 1. cbn [fst snd] in *.
    destruct (ts !! k) as [[x t]|] eqn:Ek.
    - destruct (Ht _ _ _ Ek) as ((v & Ha) & Hh).
      destruct (pstep_safe v x t m Hs Hh Ha) as (t' & m' & Ep & Hs' & Hh' & Hkeep). rewrite Ep. cbn [obind].
      destruct (IH (<[k:=(x,t')]> ts, m')) as (c' & E & Hc & Hn1 & Hn2).
      { split; [done|]. cbn [fst snd]. intros k' y u Eu. destruct (decide (k' = k)) as [->|Hne].
        - rewrite list_lookup_insert in Eu by (by eapply lookup_lt_Some). injection Eu as <- <-. split; [by exists v|done].
        - rewrite list_lookup_insert_ne in Eu by done. destruct (Ht _ _ _ Eu) as (? & ?). split; [done|]. by apply Hkeep. }
      exists c'. split; [exact E|]. split; [done|]. cbn [fst] in *. split.
      + intros k' Hk'. apply not_elem_of_cons in Hk' as [Hne Hk']. rewrite Hn1 by done. by rewrite list_lookup_insert_ne.
      + intros k'. rewrite Hn2. destruct (decide (k' = k)) as [->|Hne].
        * rewrite list_lookup_insert by (by eapply lookup_lt_Some). by rewrite Ek.
        * by rewrite list_lookup_insert_ne.
    - cbn [obind]. destruct (IH (ts, m)) as (c' & E & Hc & Hn1 & Hn2); [done|]. exists c'. split; [exact E|]. split; [done|].
      split; [|done]. intros k' Hk'. apply not_elem_of_cons in Hk' as [Hne Hk']. by apply Hn1.
  Qed.

  (** ** Bad interleavings of two calls *)
  (** both threads evaluate the clauses in lockstep; the one that evaluates a clause last determines its output *)
  Definition mixed (sel : nat -> bool) (v1 v2 : nat -> bool) (j : nat) : bool := if sel j then v1 j else v2 j.
  Definition lockstep (sel : nat -> bool) (order : list nat) : list nat :=
    concat (map (fun j => if sel j then [1; 0] else [0; 1])%nat order).
  Lemma lockstep_run sel v1 v2 x1 x2 : asks v1 x1 -> asks v2 x2 -> forall order m, Forall (fun j => (j < n)%nat) order -> NoDup order ->
    sized m -> good_out (mixed sel v1 v2) order m ->
    exists m', run_threads (lockstep sel order) ([(x1, InClauses order); (x2, InClauses order)], m) =
      Ret ([(x1, InClauses []); (x2, InClauses [])], m') /\ sized m' /\ good_out (mixed sel v1 v2) [] m'.
  Proof using Hw Hm He Hn HT HL.
    intros H1 H2. induction order as [|j order IH]; intros m Hf Hnd Hs Ho; [by exists m|].
    apply Forall_cons in Hf as [Hj Hf]. apply NoDup_cons in Hnd as [Hnj Hnd]. destruct Hs as [Lo Ls].
    assert (forall f b1 b2, b2 = mixed sel v1 v2 j -> f = Shared (<[j:=b2z b2]> (<[j:=b2z b1]> (sh_out m))) (sh_sum m) ->
      exists m', run_threads (lockstep sel order) ([(x1, InClauses order); (x2, InClauses order)], f) =
      Ret ([(x1, InClauses []); (x2, InClauses [])], m') /\ sized m' /\ good_out (mixed sel v1 v2) [] m') as Hgo.
    { intros f b1 b2 -> ->. rewrite list_insert_insert. apply IH; [done|done| |].
      - split; cbn; [by rewrite insert_length|done].
      - intros k Hk Hnk. cbn. destruct (decide (k = j)) as [->|Hne]; [by rewrite list_lookup_insert by lia|].
        rewrite list_lookup_insert_ne by done. apply Ho; [done|]. by apply not_elem_of_cons. }
    unfold lockstep. cbn [map concat]. unfold run_threads. rewrite ofold_app.
    unfold mixed in Hgo. destruct (sel j) eqn:Esel; cbn [ofold]; unfold kstep at 1 2; cbn [fst snd lookup list_lookup insert list_insert alter];
      rewrite ?(H1 j Hj), ?(H2 j Hj); cbn [obind pstep]; rewrite ?(H1 j Hj), ?(H2 j Hj); cbn [obind]; rewrite vset_ret by lia; cbn [obind fst snd lookup list_lookup insert list_insert pstep sh_out sh_sum];
      rewrite ?(H1 j Hj), ?(H2 j Hj); cbn [obind]; rewrite vset_ret by (rewrite insert_length; lia); cbn [obind insert list_insert].
    - eapply (Hgo _ (v2 j) (v1 j)); done.
    - eapply (Hgo _ (v1 j) (v2 j)); done.
  Qed.
  (** a thread evaluates its clauses, the others wait *)
  Lemma clauses_run v x : asks v x -> forall order ts k m, ts !! k = Some (x, InClauses order) -> Forall (fun j => (j < n)%nat) order ->
    sized m -> exists m', run_threads (replicate (length order) k) (ts, m) = Ret (<[k := (x, InClauses [])]> ts, m') /\ sized m' /\
      (forall td, good_out v td m -> good_out v td m') /\ (forall j, j ∈ order -> sh_out m' !! j = Some (b2z (v j))).
  Proof using Hw Hm He Hn HT HL.
    intros Hx. induction order as [|j order IH]; intros ts k m Ek Hf Hs.
    - exists m. cbn. rewrite list_insert_id by done. split_and!; try done. intros j Hj. by apply elem_of_nil in Hj.
    - apply Forall_cons in Hf as [Hj Hf]. destruct Hs as [Lo Ls]. cbn [length replicate]. unfold run_threads. cbn [ofold]. unfold kstep at 1.
      cbn [fst snd]. rewrite Ek. cbn [pstep]. rewrite (Hx j Hj). cbn [obind]. rewrite vset_ret by lia. cbn [obind].
      destruct (IH (<[k:=(x, InClauses order)]> ts) k (Shared (<[j:=b2z (v j)]> (sh_out m)) (sh_sum m))) as (m' & E & Hs' & Hk & Ho).
      { apply list_lookup_insert. by eapply lookup_lt_Some. } { done. } { split; cbn; [by rewrite insert_length|done]. }
      exists m'. rewrite list_insert_insert in E. split; [exact E|]. split; [done|].
      assert (forall td, good_out v td m -> good_out v td m') as Hg.
      { intros td Ht. apply Hk. intros i Hi Hni. cbn. destruct (decide (i = j)) as [->|Hne]; [by rewrite list_lookup_insert by lia|].
        rewrite list_lookup_insert_ne by done. by apply Ht. }
      split; [exact Hg|]. intros i Hi. apply elem_of_cons in Hi as [->|Hi]; [|by apply Ho].
      destruct (decide (j ∈ order)) as [Hin|Hnin]; [by apply Ho|].
      apply (Hk (filter (fun i => i <> j) (seq 0 n))); [|done|].
      + intros i Hi Hni. cbn. destruct (decide (i = j)) as [->|Hne]; [by rewrite list_lookup_insert by lia|].
        exfalso. apply Hni. apply elem_of_list_filter. split; [done|]. apply elem_of_seq. lia.
      + intros Hin%elem_of_list_filter. by destruct Hin.
  Qed.
End Threads.
