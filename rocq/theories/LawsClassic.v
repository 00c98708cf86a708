(** * The classic algorithm satisfies the laws. *)
From Verif Require Export Laws.
Local Open Scope Z_scope.

Section Classic.
  Context (R : rnd) (g_ok : eG R -> Prop) (f_ok : eF R -> Prop) (HR : rnd_ok R g_ok f_ok).

  Definition cl_view : aview (classic R) := {|
    v_phys := (fun _ => True) : a_smp (classic R) -> Prop;
    v_ok := dense_ok : nat -> a_smp (classic R) -> Prop;
    v_x := dense_bit : a_smp (classic R) -> nat -> bool;
    v_inc m _ := auto_inc m;
    v_incn m _ := auto_incn m;
    v_cell m _ r c := (nm_cell m r c, false);
    v_fits := nm_fits |}.

  (** automata: 2 n rows of nf cells of w bits, all within [-N, N-1] *)
  Definition cl_inv (w N : Z) (n nf : nat) (m : nmatrix) (p : a_pol (classic R)) : Prop :=
    nm_good m /\ nm_w m = w /\ nm_rows m = (2 * n)%nat /\ nm_cols m = nf /\
    forall r c, (r < 2 * n)%nat -> (c < nf)%nat -> - N <= nm_cell m r c <= N - 1.

  (** Type I, silent clause: two toss vectors *)
  Definition cl_E1n (N : Z) (nf : nat) (ct : coin_tosser) (x : a_smp (classic R)) (j : nat) (s s' : amp (classic R)) : Prop :=
    exists t1 t2, zo_list nf t1 /\ zo_list nf t2 /\
      hits_of ct (Z.of_nat (count_ones t1)) /\ hits_of ct (Z.of_nat (count_ones t2)) /\
      forall k, (k < nf)%nat ->
        nm_cell s'.1 (2 * j) k = type1_silent N (toss t1 k) (nm_cell s.1 (2 * j) k) /\
        nm_cell s'.1 (2 * j + 1) k = type1_silent N (toss t2 k) (nm_cell s.1 (2 * j + 1) k).
  (** Type I, firing clause *)
  Definition cl_E1p (N : Z) (boost : bool) (nf : nat) (ct : coin_tosser) (x : a_smp (classic R)) (j : nat) (s s' : amp (classic R)) : Prop :=
    exists t1 t2, zo_list nf t1 /\ zo_list nf t2 /\
      hits_of ct (Z.of_nat (count_ones t1)) /\ hits_of ct (Z.of_nat (count_ones t2)) /\
      forall k, (k < nf)%nat ->
        nm_cell s'.1 (2 * j) k = type1_fired boost N (dense_bit x k) (toss t1 k) (nm_cell s.1 (2 * j) k) /\
        nm_cell s'.1 (2 * j + 1) k = type1_fired boost N (negb (dense_bit x k)) (toss t2 k) (nm_cell s.1 (2 * j + 1) k).
  Definition cl_E2 (nf : nat) (x : a_smp (classic R)) (j : nat) (s s' : amp (classic R)) : Prop :=
    forall k, (k < nf)%nat ->
      nm_cell s'.1 (2 * j) k = type2 (dense_bit x k) (nm_cell s.1 (2 * j) k) /\
      nm_cell s'.1 (2 * j + 1) k = type2 (negb (dense_bit x k)) (nm_cell s.1 (2 * j + 1) k).

  Lemma up_range N st : 1 <= N -> - N <= st <= N - 1 -> - N <= up N st <= N - 1.
  Proof. unfold up. destruct (Z.ltb_spec st (N - 1)); lia. Qed.
  Lemma down_range N st : 1 <= N -> - N <= st <= N - 1 -> - N <= down N st <= N - 1.
  Proof. unfold down. destruct (Z.ltb_spec (- N) st); lia. Qed.
  Lemma type1_fired_range boost N l t st : 1 <= N -> - N <= st <= N - 1 -> - N <= type1_fired boost N l t st <= N - 1.
  Proof.
    intros. pose proof (up_range N st). pose proof (down_range N st). unfold type1_fired.
    destruct l, boost, t; simpl; auto.
  Qed.
  Lemma type1_silent_range N t st : 1 <= N -> - N <= st <= N - 1 -> - N <= type1_silent N t st <= N - 1.
  Proof. intros. unfold type1_silent. destruct t; [by apply down_range|done]. Qed.
  Lemma type2_range N l st : 1 <= N -> - N <= st <= N - 1 -> - N <= type2 l st <= N - 1.
  Proof. intros. unfold type2. destruct l; simpl; [done|]. destruct (Z.ltb_spec st 0); lia. Qed.

  Lemma on_clause_pos {T} j (FP FN : nat -> T -> T) c v : on_clause j FP FN (2 * j) c v = FP c v.
  Proof. unfold on_clause. by rewrite Nat.eqb_refl. Qed.
  Lemma on_clause_neg {T} j (FP FN : nat -> T -> T) c v : on_clause j FP FN (2 * j + 1) c v = FN c v.
  Proof. unfold on_clause. rewrite (proj2 (Nat.eqb_neq (2 * j + 1) (2 * j))) by lia. by rewrite Nat.eqb_refl. Qed.
  Lemma on_clause_other {T} j (FP FN : nat -> T -> T) r c v : r <> (2 * j)%nat -> r <> (2 * j + 1)%nat -> on_clause j FP FN r c v = v.
  Proof. intros. unfold on_clause. by rewrite !(proj2 (Nat.eqb_neq _ _)). Qed.

  (** an update of one clause by range-preserving moves keeps the invariant and touches only the clause *)
  Lemma cl_inv_nupd w N n nf j FP FN m m' :
    cl_inv w N n nf m tt -> nupd (on_clause j FP FN) m m' ->
    (forall k st, - N <= st <= N - 1 -> - N <= FP k st <= N - 1) ->
    (forall k st, - N <= st <= N - 1 -> - N <= FN k st <= N - 1) ->
    cl_inv w N n nf m' tt /\ only_clause cl_view n nf j (m, tt) (m', tt).
  Proof.
    intros (Hg & Ew & Er & Ec & Hr) (Hg' & (Ew' & Er' & Ec') & Hcell) HP HN. split.
    - split; [done|]. split; [congruence|]. split; [congruence|]. split; [congruence|].
      intros r c Hr1 Hc1. rewrite Hcell by congruence. unfold on_clause.
      pose proof (Hr r c Hr1 Hc1). repeat case_match; auto.
    - intros r c Hr1 Hc1 H1 H2. simpl in *. rewrite Hcell by congruence. by rewrite on_clause_other.
  Qed.

  Lemma dense_zo nf x : dense_ok nf x -> zo_list nf x.
  Proof. done. Qed.

  Lemma cl_init_wf w N n nf (U V : Prop) g : nm_wf (nm_new w (2 * n) nf) -> (w = 8 \/ w = 16 \/ w = 32) -> 1 <= N -> g_ok g ->
    wp U V (classic_init R w (2 * n) nf g) (fun '(m, p, g') => cl_inv w N n nf m p /\ g_ok g').
  Proof.
    intros Hwf Hw HN Hg. unfold classic_init. cbv zeta. cbn [nm_new nm_rows nm_cols]. fold (nm_new w (2 * n) nf).
    set (m0 := nm_new w (2 * n) nf) in *.
    set (P := fun (m : nmatrix) (g : eG R) => nm_wf m /\ nm_same_shape m0 m /\ g_ok g /\
      forall r c, (c < nf)%nat -> nm_cell m r c = -1 \/ nm_cell m r c = 0).
    apply wp_bind. eapply wp_mono; [apply (wp_ofor (fun _ '(m, g) => P m g))|].
    - split; [done|]. split; [done|]. split; [done|]. intros r c _. right. unfold nm_cell, m0, nm_new; simpl.
      destruct (replicate _ _ !! _) eqn:E; [|done]. by apply lookup_replicate in E as [-> _].
    - intros i [m1 g1] Hi HP1. eapply wp_mono; [apply (wp_ofor (fun _ '(m, g) => P m g))|by intros [? ?]].
      + done.
      + pose proof HP1 as (_ & (_ & _ & Ecm) & _). rewrite Ecm. cbn [m0 nm_new nm_cols].
        intros k [m2 g2] Hk (Hwf2 & Hs2 & Hg2 & Hc2). pose proof (igen_m1_0_spec R g_ok f_ok HR w g2 Hw Hg2) as Hv.
        destruct (igen_m1_0 R g2) as [v g3]. destruct Hv as [Hg3 Hv].
        pose proof Hs2 as (Ew & Er & Ec). simpl in Ew, Er, Ec.
        destruct (nm_set_spec m2 i k v Hwf2) as (m3 & -> & Hwf3 & Hs3 & Hc3); [lia|lia|]. cbn.
        split; [done|]. pose proof Hs3 as (Ew3 & Er3 & Ec3). split; [split_and!; simpl; congruence|]. split; [done|].
        intros r c Hc. rewrite Hc3 by lia. destruct (_ && _); [|by apply Hc2].
        rewrite Ew. done.
    - intros [m g1] (Hwf1 & (Ew & Er & Ec) & Hg1 & Hc1). cbn. simpl in Ew, Er, Ec. split; [|done].
      assert (forall z, (z = -1 \/ z = 0) -> in_w w z /\ - N <= z <= N - 1) as HB.
      { intros z Hz. unfold in_w. destruct Hw as [->|[->| ->]]; simpl; lia. }
      split; [|split; [done|]; split; [done|]; split; [done|]; intros r c _ Hc; apply HB; by apply Hc1].
      split; [done|]. split; [rewrite Ew; destruct Hw as [->|[->| ->]]; lia|].
      intros r c Hr Hc. rewrite Ew. apply HB. apply Hc1. lia.
  Qed.

  Lemma cl_same_clause_cells nf j s t : same_clause cl_view nf j s t -> forall k, (k < nf)%nat ->
    nm_cell t.1 (2 * j) k = nm_cell s.1 (2 * j) k /\ nm_cell t.1 (2 * j + 1) k = nm_cell s.1 (2 * j + 1) k.
  Proof.
    intros H k Hk. destruct (H k Hk) as [H1 H2]. change (v_cell cl_view) with (fun m (_ : unit) r c => (nm_cell m r c, false)) in *.
    cbn beta in *. split; congruence.
  Qed.

  Lemma classic_laws (U V : Prop) (w N : Z) :
    (w = 8 \/ w = 16 \/ w = 32) -> 1 <= N <= 2 ^ (w - 1) ->
    laws (classic R) g_ok cl_view U V w N (cl_inv w N) (cl_E1n N) (cl_E1p N) cl_E2.
  Proof.
    intros Hw HN. constructor.
    - intros nf x [H _]. exact H.
    - intros x _. by exists true.
    - intros x _. simpl. unfold classic_01, dense_ok. rewrite forallb_forall. split.
      + intros [H _]. split; [done|]. apply Forall_forall. intros v Hv. apply elem_of_list_In in Hv.
        apply H in Hv. apply orb_true_iff in Hv as [Hv%Z.eqb_eq|Hv%Z.eqb_eq]; auto.
      + intros [_ H]. split; [|done]. intros v Hv. apply elem_of_list_In in Hv.
        rewrite Forall_forall in H. destruct (H v Hv) as [-> | ->]; done.
    - intros n nf m p (_ & _ & H & _). exact H.
    - intros n nf g Hg Hn Hf.
      destruct (decide (nm_sized (nm_new w (2 * n) nf))) as [Hwf|Hnwf].
      + apply cl_init_wf; auto; [|lia]. split; [done|]. split; [intros r c _; apply nm_new_cell|]. unfold nm_alloc, nm_new. cbn. by rewrite replicate_length.
      + change (a_init (classic R)) with (classic_init R). destruct (classic_init R w (2 * n) nf g) as [[[m p] g']|e|k|] eqn:E; cbn [wp].
        * exfalso. apply Hnwf. eapply classic_init_written; [|exact Hw|exact E]. lia.
        * destruct Hf as [Hf|]; [|done]. exfalso. apply Hnwf. by apply nm_new_wf.
        * destruct Hf as [Hf|]; [|done]. exfalso. apply Hnwf. by apply nm_new_wf.
        * destruct Hf as [Hf|HU]; [exfalso; apply Hnwf; by apply nm_new_wf|].
          (* the initialisation has no unbounded loop *)
          exfalso. revert E. clear. unfold classic_init. cbv zeta. intros E.
          match type of E with obind ?o _ = _ => assert (wp True False o (fun _ => True)) as Hwp end.
          { eapply wp_mono; [apply (wp_ofor (fun _ _ => True)); [done|]|done]. intros i [m1 g1] _ _.
            eapply wp_mono; [apply (wp_ofor (fun _ _ => True)); [done|]|done]. intros k [m2 g2] _ _.
            destruct (igen_m1_0 R g2). unfold nm_set, vset. case_decide; done. }
          match type of E with obind ?o _ = _ => destruct o as [[? ?]| | |]; simpl in *; done end.
    - intros n nf m p ws x j B (Hg & Ew & Er & Ec & _) [El Hf] Hj HB. simpl.
      rewrite (cl_clause_spec B x m j) ; try done; try lia; [by rewrite El|apply Hg].
    - intros n nf m p ws x j B (Hg & Ew & Er & Ec & _) [El Hf] Hj HB. simpl.
      rewrite (clp_clause_spec B x m j) ; try done; try lia; [by rewrite El|apply Hg].
    - intros n nf m p x j ct g HI Hx Hj Hct Hgg. simpl. destruct p.
      apply wp_bind. eapply wp_mono; [by eapply tosses12_spec|].
      intros [ct' g'] (Hg' & Hok & (Hsr & Z1 & Z2 & O1 & O2)).
      pose proof HI as (Hg & Ew & Er & Ec & Hrg). pose proof Hx as [El _].
      assert (1 <= N <= 2 ^ (nm_w m - 1)) as HN' by (rewrite Ew; lia).
      assert (2 * j + 1 < nm_rows m)%nat as Hj' by lia. rewrite El.
      destruct (block1_spec nf N j (ct_c1 ct') (ct_c2 ct') m) as (m' & -> & Hup); [done..|].
      cbn. destruct (cl_inv_nupd _ _ _ _ _ _ _ _ _ HI Hup) as [HI' Hfr].
      { intros. apply type1_silent_range; [lia|done]. } { intros. apply type1_silent_range; [lia|done]. }
      split; [done|]. split; [done|]. split; [|done].
      exists (ct_c1 ct'), (ct_c2 ct'). split; [done|]. split; [done|]. split; [done|]. split; [done|].
      intros k Hk. destruct Hup as (_ & _ & Hcell). simpl.
      split; rewrite Hcell by lia; [by rewrite on_clause_pos|by rewrite on_clause_neg].
    - intros boost n nf m p x j ct g HI Hx Hj Hct Hgg. simpl. destruct p.
      apply wp_bind. eapply wp_mono; [by eapply tosses12_spec|].
      intros [ct' g'] (Hg' & Hok & (Hsr & Z1 & Z2 & O1 & O2)).
      pose proof HI as (Hg & Ew & Er & Ec & Hrg). pose proof Hx as [El _].
      assert (1 <= N <= 2 ^ (nm_w m - 1)) as HN' by (rewrite Ew; lia).
      assert (2 * j + 1 < nm_rows m)%nat as Hj' by lia. rewrite El.
      destruct (block2_spec boost nf N j x (ct_c1 ct') (ct_c2 ct') m) as (m' & -> & Hup); [done..|].
      cbn. destruct (cl_inv_nupd _ _ _ _ _ _ _ _ _ HI Hup) as [HI' Hfr].
      { intros. apply type1_fired_range; [lia|done]. } { intros. apply type1_fired_range; [lia|done]. }
      split; [done|]. split; [done|]. split; [|done].
      exists (ct_c1 ct'), (ct_c2 ct'). split; [done|]. split; [done|]. split; [done|]. split; [done|].
      intros k Hk. destruct Hup as (_ & _ & Hcell). simpl.
      split; rewrite Hcell by lia; [by rewrite on_clause_pos|by rewrite on_clause_neg].
    - intros n nf m p x j HI Hx Hj. simpl. destruct p.
      pose proof HI as (Hg & Ew & Er & Ec & Hrg). pose proof Hx as [El _].
      assert (1 <= N <= 2 ^ (nm_w m - 1)) as HN' by (rewrite Ew; lia).
      assert (2 * j + 1 < nm_rows m)%nat as Hj' by lia. rewrite El.
      destruct (block3_spec nf j x m) as (m' & -> & Hup); [done..|].
      cbn. destruct (cl_inv_nupd _ _ _ _ _ _ _ _ _ HI Hup) as [HI' Hfr].
      { intros. apply type2_range; [lia|done]. } { intros. apply type2_range; [lia|done]. }
      split; [done|]. split; [done|].
      intros k Hk. destruct Hup as (_ & _ & Hcell). simpl.
      split; rewrite Hcell by lia; [by rewrite on_clause_pos|by rewrite on_clause_neg].
    - intros nf ct ct' x j s s' t t' Hr H1 H2 (t1 & t2 & Z1 & Z2 & O1 & O2 & H).
      exists t1, t2. do 2 (split; [done|]). do 2 (split; [by eapply hits_of_same|]).
      intros k Hk. destruct (cl_same_clause_cells _ _ _ _ H1 k Hk) as [-> ->], (cl_same_clause_cells _ _ _ _ H2 k Hk) as [-> ->].
      by apply H.
    - intros boost nf ct ct' x j s s' t t' Hr H1 H2 (t1 & t2 & Z1 & Z2 & O1 & O2 & H).
      exists t1, t2. do 2 (split; [done|]). do 2 (split; [by eapply hits_of_same|]).
      intros k Hk. destruct (cl_same_clause_cells _ _ _ _ H1 k Hk) as [-> ->], (cl_same_clause_cells _ _ _ _ H2 k Hk) as [-> ->].
      by apply H.
    - intros nf x j s s' t t' H1 H2 H k Hk.
      destruct (cl_same_clause_cells _ _ _ _ H1 k Hk) as [-> ->], (cl_same_clause_cells _ _ _ _ H2 k Hk) as [-> ->].
      by apply H.
    - intros x j s ct ct' g Hs. simpl. rewrite (tosses12_sim R ct ct' g Hs).
      apply orel_same. intros [ct1 g1] _. apply orel_same. intros m _. split; [done|]. split; [done|]. apply ct_sim_refl.
    - intros boost x j s ct ct' g Hs. simpl. rewrite (tosses12_sim R ct ct' g Hs).
      apply orel_same. intros [ct1 g1] _. apply orel_same. intros m _. split; [done|]. split; [done|]. apply ct_sim_refl.
  Qed.
End Classic.
