(** * Invariants of every reachable estimator: automata ranges, polarity, weights, clause semantics. *)
From Verif Require Export HistFacts.
From stdpp Require Import list.
Local Open Scope Z_scope.

(** all automata of a matrix are within [-N, N-1] and hold in its cell type *)
Definition states_in_range (N : Z) (m : nmatrix) : Prop :=
  forall r c, (r < nm_rows m)%nat -> (c < nm_cols m)%nat ->
    - N <= nm_cell m r c <= N - 1 /\ - 2 ^ (nm_w m - 1) <= nm_cell m r c < 2 ^ (nm_w m - 1).
(** polarity bits are the signs, bits past the last column are clear *)
Definition polarity_synced (m : nmatrix) (p : bmatrix) : Prop :=
  bm_rows p = nm_rows m /\ bm_cols p = nm_cols m /\
  (forall r c, (r < nm_rows m)%nat -> (c < nm_cols m)%nat -> bm_bit 64 p r c = (0 <=? nm_cell m r c)) /\
  (forall r c, (r < nm_rows m)%nat -> (nm_cols m <= c < bm_row_blocks p * 64)%nat -> bm_bit 64 p r c = false).

Section Inv.
  Context {R : rnd} (g_ok : eG R -> Prop) (f_ok : eF R -> Prop) (HR : rnd_ok R g_ok f_ok).
  Context (S : sch) (HS : sch_ok S).

  (** ** the classic algorithm *)
  Section Classic.
    Notation A := (classic R).
    Notation vw := (cl_view R).
    Lemma cl_range w N n nf m p : cl_inv R w N n nf m p -> states_in_range N m.
    Proof.
      intros ((_ & _ & Hg) & Ew & Er & Ec & H) r c Hr Hc. split; [apply H; congruence|]. by apply Hg.
    Qed.
    Lemma clf_classic_at a p os rs e : clf_created a p -> clf_history S A vw p os rs e ->
      clf_at g_ok f_ok S A True True (cl_inv R (width_of (ca_counting a) (ca_states a)) (ca_states a)) a p (clf_dims_of os rs) e.
    Proof.
      intros Hc Hh. pose proof Hc as [[[] [] _] _ _]. unfold is_int in *. destruct (wide_enough (ca_counting a) (ca_states a)) as [H1 H2]; [done|lia|].
      eapply (clf_history_at g_ok f_ok HR S HS A vw _ _ _ _ _ _ (fun U V => classic_laws R g_ok f_ok HR U V _ _ H1 H2)); done.
    Qed.
    Lemma reg_classic_at a p os rs e : reg_created a p -> reg_history S A vw p os rs e ->
      reg_at g_ok S A True True (cl_inv R (width_of (ra_counting a) (ra_states a)) (ra_states a)) a p (reg_dims_of os rs) e.
    Proof.
      intros Hc Hh. pose proof Hc as [[[] [] _] _]. unfold is_int in *. destruct (wide_enough (ra_counting a) (ra_states a)) as [H1 H2]; [done|lia|].
      eapply (reg_history_at g_ok f_ok HR S HS A vw _ _ _ _ _ _ (fun U V => classic_laws R g_ok f_ok HR U V _ _ H1 H2)); done.
    Qed.
    Lemma clf_classic_range a p os rs e : clf_created a p -> clf_history S A vw p os rs e -> states_in_range (ca_states a) (ta_matrix (e_ta e)).
    Proof.
      intros Hc Hh. pose proof (clf_classic_at a p os rs e Hc Hh) as H. destruct (clf_dims_of os rs) as [[L nf]|].
      - destruct H as [(_ & _ & [HI _ _ _ _ _ _]) _]. by eapply cl_range.
      - cbn in H. subst e. intros r c Hr. cbn in Hr. lia.
    Qed.
    Lemma reg_classic_range a p os rs e : reg_created a p -> reg_history S A vw p os rs e -> states_in_range (ra_states a) (ta_matrix (e_ta e)).
    Proof.
      intros Hc Hh. pose proof (reg_classic_at a p os rs e Hc Hh) as H. destruct (reg_dims_of os rs) as [nf|].
      - destruct H as [(_ & _ & [HI _ _ _ _ _]) _]. by eapply cl_range.
      - cbn in H. subst e. intros r c Hr. cbn in Hr. lia.
    Qed.
  End Classic.

  (** ** the bitwise algorithm, at least two states *)
  Section Bitwise.
    Notation A := (Algo.bitwise R).
    Notation vw := (bw_view R).
    Lemma bw_range w N n nf m p : bw_full R w N n nf m p -> states_in_range N m /\ polarity_synced m p.
    Proof.
      intros [(((_ & _ & Hg) & Hwf & Er & Ec) & Ew & Er' & Ec' & Hpad) H]. cbn [fst snd] in *. split.
      - intros r c Hr Hc. split; [apply (H r c); congruence|]. by apply Hg.
      - split; [done|]. split; [done|]. split.
        + intros r c Hr Hc. apply (H r c); congruence.
        + intros r c Hr Hc. apply Hpad; [congruence|lia].
    Qed.
    Lemma clf_bitwise_at a p os rs e : clf_created a p -> 2 <= ca_states a -> clf_history S A vw p os rs e ->
      clf_at g_ok f_ok S A True True (bw_full R (width_of (ca_counting a) (ca_states a)) (ca_states a)) a p (clf_dims_of os rs) e.
    Proof.
      intros Hc H2 Hh. pose proof Hc as [[[] [] _] _ _]. unfold is_int in *. destruct (wide_enough (ca_counting a) (ca_states a)) as [H1 H3]; [done|lia|].
      eapply (clf_history_at g_ok f_ok HR S HS A vw _ _ _ _ _ _ (fun U V => bitwise_laws R g_ok f_ok HR U V _ _ H1 (conj H2 (proj2 H3)))); done.
    Qed.
    Lemma reg_bitwise_at a p os rs e : reg_created a p -> 2 <= ra_states a -> reg_history S A vw p os rs e ->
      reg_at g_ok S A True True (bw_full R (width_of (ra_counting a) (ra_states a)) (ra_states a)) a p (reg_dims_of os rs) e.
    Proof.
      intros Hc H2 Hh. pose proof Hc as [[[] [] _] _]. unfold is_int in *. destruct (wide_enough (ra_counting a) (ra_states a)) as [H1 H3]; [done|lia|].
      eapply (reg_history_at g_ok f_ok HR S HS A vw _ _ _ _ _ _ (fun U V => bitwise_laws R g_ok f_ok HR U V _ _ H1 (conj H2 (proj2 H3)))); done.
    Qed.
    Lemma clf_bitwise_range a p os rs e : clf_created a p -> 2 <= ca_states a -> clf_history S A vw p os rs e ->
      states_in_range (ca_states a) (ta_matrix (e_ta e)) /\ polarity_synced (ta_matrix (e_ta e)) (ta_pol (e_ta e)).
    Proof.
      intros Hc H2 Hh. pose proof (clf_bitwise_at a p os rs e Hc H2 Hh) as H. destruct (clf_dims_of os rs) as [[L nf]|].
      - destruct H as [(_ & _ & [HI _ _ _ _ _ _]) _]. by eapply bw_range.
      - cbn in H. subst e. split; [|split; [done|split; [done|split]]]; intros r c Hr; cbn in Hr; lia.
    Qed.
    Lemma reg_bitwise_range a p os rs e : reg_created a p -> 2 <= ra_states a -> reg_history S A vw p os rs e ->
      states_in_range (ra_states a) (ta_matrix (e_ta e)) /\ polarity_synced (ta_matrix (e_ta e)) (ta_pol (e_ta e)).
    Proof.
      intros Hc H2 Hh. pose proof (reg_bitwise_at a p os rs e Hc H2 Hh) as H. destruct (reg_dims_of os rs) as [nf|].
      - destruct H as [(_ & _ & [HI _ _ _ _ _]) _]. by eapply bw_range.
      - cbn in H. subst e. split; [|split; [done|split; [done|split]]]; intros r c Hr; cbn in Hr; lia.
    Qed.
  End Bitwise.

  (** ** Shapes and weights, both algorithms *)
  Section Both.
    Context (A : algo R) (vw : aview A) (HA : tsetlini_algo R A vw).
    (** shape of the automata of a fitted estimator *)
    Lemma clf_shape a p os rs e L nf : clf_created a p -> clf_history S A vw p os rs e -> clf_dims_of os rs = Some (L, nf) ->
      nm_w (ta_matrix (e_ta e)) = width_of (ca_counting a) (ca_states a) /\
      Z.of_nat (nm_rows (ta_matrix (e_ta e))) = Z.of_nat L * ca_clauses a /\ nm_cols (ta_matrix (e_ta e)) = nf.
    Proof.
      intros Hc Hh Ed. pose proof Hc as [Hv _ _]. pose proof Hv as [[] [] _]. unfold is_int in *.
      destruct (wide_enough (ca_counting a) (ca_states a)) as [H1 H3]; [done|lia|]. destruct (clf_opl_facts a Hv) as (Eo & _).
      destruct HA.
      - pose proof (clf_classic_at a p os rs e Hc Hh) as H. rewrite Ed in H. destruct H as [(_ & _ & [HI _ _ _ _ _ _]) _].
        destruct HI as (_ & Ew & Er & Ec & _). cbn in *. split; [done|]. split; [|done]. lia.
      - pose proof (clf_history_at g_ok f_ok HR S HS _ _ _ _ _ _ _ _ (fun U V => bitwise_laws_struct R g_ok f_ok HR U V _ _ H1 H3) a p os rs e Hc eq_refl eq_refl Hh) as H.
        rewrite Ed in H. destruct H as [(_ & _ & [HI _ _ _ _ _ _]) _]. destruct HI as (_ & Ew & Er & Ec & _). cbn in *. split; [done|]. split; [|done]. lia.
    Qed.
    Lemma reg_shape a p os rs e nf : reg_created a p -> reg_history S A vw p os rs e -> reg_dims_of os rs = Some nf ->
      nm_w (ta_matrix (e_ta e)) = width_of (ra_counting a) (ra_states a) /\
      Z.of_nat (nm_rows (ta_matrix (e_ta e))) = ra_clauses a /\ nm_cols (ta_matrix (e_ta e)) = nf.
    Proof.
      intros Hc Hh Ed. pose proof Hc as [Hv _]. pose proof Hv as [[] [] _]. unfold is_int in *.
      destruct (wide_enough (ra_counting a) (ra_states a)) as [H1 H3]; [done|lia|]. destruct (reg_n_facts a Hv) as (Eo & _).
      destruct HA.
      - pose proof (reg_classic_at a p os rs e Hc Hh) as H. rewrite Ed in H. destruct H as [(_ & _ & [HI _ _ _ _ _]) _].
        destruct HI as (_ & Ew & Er & Ec & _). cbn in *. split; [done|]. split; [|done]. lia.
      - pose proof (reg_history_at g_ok f_ok HR S HS _ _ _ _ _ _ _ _ (fun U V => bitwise_laws_struct R g_ok f_ok HR U V _ _ H1 H3) a p os rs e Hc eq_refl eq_refl Hh) as H.
        rewrite Ed in H. destruct H as [(_ & _ & [HI _ _ _ _ _]) _]. destruct HI as (_ & Ew & Er & Ec & _). cbn in *. split; [done|]. split; [|done]. lia.
    Qed.

    Lemma clf_weights a p os rs e : clf_created a p -> clf_history S A vw p os rs e ->
      if ca_weighted a then
        Forall (fun w => 0 <= w /\ 1 + w <= ca_max_weight a) (ta_weights (e_ta e)) /\
        (forall L nf, clf_dims_of os rs = Some (L, nf) -> Z.of_nat (length (ta_weights (e_ta e))) = Z.of_nat L * (ca_clauses a / 2))
      else ta_weights (e_ta e) = [].
    Proof.
      intros Hc Hh. destruct (clf_hist_laws g_ok f_ok HR A vw HA a (cc_valid _ _ Hc)) as (I & E1n & E1p & E2 & Lw).
      pose proof (clf_history_at g_ok f_ok HR S HS A vw _ _ I E1n E1p E2 Lw a p os rs e Hc eq_refl eq_refl Hh) as Hat.
      destruct (clf_dims_of os rs) as [[L nf]|].
      - destruct Hat as [(Hv & _ & [_ Hwt _ _ _ _ _]) _]. cbn in Hwt. unfold weights_ok in Hwt. destruct (ca_weighted a); [|done].
        destruct Hwt as [El Hf]. split; [done|]. intros L' nf' [= <- <-]. rewrite El. unfold clf_opl.
        destruct Hv as [_ [] _]. rewrite Nat2Z.inj_mul, Z2Nat.id; [done|]. apply Z.div_pos; lia.
      - cbn in Hat. subst e. destruct (ca_weighted a); [|done]. split; [constructor|done].
    Qed.
    Lemma reg_weights a p os rs e : reg_created a p -> reg_history S A vw p os rs e ->
      if ra_weighted a then
        Forall (fun w => 0 <= w /\ 1 + w <= ra_max_weight a) (ta_weights (e_ta e)) /\
        (forall nf, reg_dims_of os rs = Some nf -> Z.of_nat (length (ta_weights (e_ta e))) = ra_clauses a / 2)
      else ta_weights (e_ta e) = [].
    Proof.
      intros Hc Hh. destruct (reg_hist_laws g_ok f_ok HR A vw HA a (rc_valid _ _ Hc)) as (I & E1n & E1p & E2 & Lw).
      pose proof (reg_history_at g_ok f_ok HR S HS A vw _ _ I E1n E1p E2 Lw a p os rs e Hc eq_refl eq_refl Hh) as Hat.
      destruct (reg_dims_of os rs) as [nf|].
      - destruct Hat as [(Hv & _ & [_ Hwt _ _ _ _]) _]. cbn in Hwt. unfold weights_ok in Hwt. destruct (ra_weighted a); [|done].
        destruct Hwt as [El Hf]. split; [done|]. intros nf' [= <-]. rewrite El. unfold reg_n.
        destruct Hv as [_ [] _]. rewrite Z2Nat.id; [done|]. apply Z.div_pos; lia.
      - cbn in Hat. subst e. destruct (ra_weighted a); [|done]. split; [constructor|done].
    Qed.

    (** ** Clause outputs, for any thread count, tile size, schedule and scratch contents *)
    Lemma clf_clause_outputs a p os rs e L nf x c n_jobs tile : clf_created a p -> clf_history S A vw p os rs e ->
      clf_dims_of os rs = Some (L, nf) -> v_ok vw nf x -> tile_known tile ->
      length (ca_out c) = (L * clf_opl a)%nat ->
      (exists c', calc_clause_output_pruned S A x c (Z.of_nat (L * clf_opl a)) (e_ta e) n_jobs tile = Ret c' /\
        forall j, (j < L * clf_opl a)%nat -> ca_out c' !! j = Some (b2z (fires_pruned vw nf (e_ta e) x j))) /\
      (forall b t, (t <= L * clf_opl a)%nat -> exists c', calc_clause_output S A x c (Z.of_nat b) (Z.of_nat t) (e_ta e) n_jobs tile = Ret c' /\
        forall j, ca_out c' !! j = if decide (b <= j < t)%nat then Some (b2z (fires vw nf (e_ta e) x j)) else ca_out c !! j).
    Proof.
      intros Hc Hh Ed Hx Ht El. destruct (clf_hist_laws g_ok f_ok HR A vw HA a (cc_valid _ _ Hc)) as (I & E1n & E1p & E2 & Lw).
      pose proof (clf_history_at g_ok f_ok HR S HS A vw _ _ I E1n E1p E2 Lw a p os rs e Hc eq_refl eq_refl Hh) as Hat.
      rewrite Ed in Hat. destruct Hat as [(_ & _ & [HI _ _ _ _ _ _]) _]. cbn in HI. specialize (Lw True True). split.
      - destruct (calc_pruned_spec g_ok S HS A vw True True _ _ I E1n E1p E2 Lw _ nf x c (e_ta e) n_jobs tile HI Hx Ht El) as (c' & -> & _ & _ & H). eauto.
      - intros b t Hbt. destruct (calc_output_spec g_ok S HS A vw True True _ _ I E1n E1p E2 Lw _ nf x c (e_ta e) b t n_jobs tile HI Hx Ht Hbt ltac:(lia))
          as (c' & -> & _ & _ & _ & _ & H). eauto.
    Qed.
    Lemma reg_clause_outputs a p os rs e nf x c n_jobs tile : reg_created a p -> reg_history S A vw p os rs e ->
      reg_dims_of os rs = Some nf -> v_ok vw nf x -> tile_known tile ->
      length (ca_out c) = reg_n a ->
      (exists c', calc_clause_output_pruned S A x c (Z.of_nat (reg_n a)) (e_ta e) n_jobs tile = Ret c' /\
        forall j, (j < reg_n a)%nat -> ca_out c' !! j = Some (b2z (fires_pruned vw nf (e_ta e) x j))) /\
      (exists c', calc_clause_output S A x c 0 (Z.of_nat (reg_n a)) (e_ta e) n_jobs tile = Ret c' /\
        forall j, (j < reg_n a)%nat -> ca_out c' !! j = Some (b2z (fires vw nf (e_ta e) x j))).
    Proof.
      intros Hc Hh Ed Hx Ht El. destruct (reg_hist_laws g_ok f_ok HR A vw HA a (rc_valid _ _ Hc)) as (I & E1n & E1p & E2 & Lw).
      pose proof (reg_history_at g_ok f_ok HR S HS A vw _ _ I E1n E1p E2 Lw a p os rs e Hc eq_refl eq_refl Hh) as Hat.
      rewrite Ed in Hat. destruct Hat as [(_ & _ & [HI _ _ _ _ _]) _]. cbn in HI. specialize (Lw True True). split.
      - destruct (calc_pruned_spec g_ok S HS A vw True True _ _ I E1n E1p E2 Lw _ nf x c (e_ta e) n_jobs tile HI Hx Ht El) as (c' & -> & _ & _ & H). eauto.
      - destruct (calc_output_spec g_ok S HS A vw True True _ _ I E1n E1p E2 Lw (reg_n a) nf x c (e_ta e) 0 (reg_n a) n_jobs tile HI Hx Ht ltac:(lia) ltac:(lia))
          as (c' & E & _ & _ & _ & _ & H). exists c'. split; [exact E|]. intros j Hj. rewrite H, decide_True by lia. done.
    Qed.
  End Both.
End Inv.

(** ** What a firing clause is, in terms of stored automata / polarity bits *)
Lemma fires_classic {R} nf (s : tastate (a_pol (classic R))) x j : fires (cl_view R) nf s x j = true <->
  forall k, (k < nf)%nat -> (0 <= nm_cell (ta_matrix s) (2 * j) k -> dense_bit x k = true) /\
                            (0 <= nm_cell (ta_matrix s) (2 * j + 1) k -> dense_bit x k = false).
Proof.
  unfold fires. rewrite clause_true_iff. cbn. unfold auto_inc, auto_incn.
  split; intros H k Hk; destruct (H k Hk) as [H1 H2]; split; intros H3; [apply H1|apply H2|apply H1|apply H2]; by apply Z.leb_le.
Qed.
Lemma fires_bitwise {R} nf (s : tastate (a_pol (Algo.bitwise R))) x j : fires (bw_view R) nf s x j = true <->
  forall k, (k < nf)%nat -> (bm_bit 64 (ta_pol s) (2 * j) k = true -> bv_bit 64 x k = true) /\
                            (bm_bit 64 (ta_pol s) (2 * j + 1) k = true -> bv_bit 64 x k = false).
Proof. unfold fires. rewrite clause_true_iff. done. Qed.
Lemma fires_pruned_classic {R} nf (s : tastate (a_pol (classic R))) x j : fires_pruned (cl_view R) nf s x j = true <->
  fires (cl_view R) nf s x j = true /\
  exists k, (k < nf)%nat /\ (0 <= nm_cell (ta_matrix s) (2 * j) k \/ 0 <= nm_cell (ta_matrix s) (2 * j + 1) k).
Proof.
  unfold fires_pruned. rewrite andb_true_iff, clause_nonempty_iff. cbn. unfold auto_inc, auto_incn. setoid_rewrite Z.leb_le. done.
Qed.
Lemma fires_pruned_bitwise {R} nf (s : tastate (a_pol (Algo.bitwise R))) x j : fires_pruned (bw_view R) nf s x j = true <->
  fires (bw_view R) nf s x j = true /\
  exists k, (k < nf)%nat /\ (bm_bit 64 (ta_pol s) (2 * j) k = true \/ bm_bit 64 (ta_pol s) (2 * j + 1) k = true).
Proof. unfold fires_pruned. rewrite andb_true_iff, clause_nonempty_iff. done. Qed.

(** ** Classic and bitwise inference (C03) *)
Section Agree.
  Context {R : rnd}.
  (** the same automata: polarity bits of the one are the signs of the other, and the same weights *)
  Definition same_model (n nf : nat) (s1 : tastate (a_pol (classic R))) (s2 : tastate (a_pol (Algo.bitwise R))) : Prop :=
    ta_weights s1 = ta_weights s2 /\
    forall r c, (r < 2 * n)%nat -> (c < nf)%nat -> bm_bit 64 (ta_pol s2) r c = (0 <=? nm_cell (ta_matrix s1) r c).
  Definition same_sample (nf : nat) (x : list Z) (b : bit_vector) : Prop :=
    forall k, (k < nf)%nat -> bv_bit 64 b k = dense_bit x k.
  Lemma fires_agree n nf s1 s2 x b j : same_model n nf s1 s2 -> same_sample nf x b -> (j < n)%nat ->
    fires_pruned (bw_view R) nf s2 b j = fires_pruned (cl_view R) nf s1 x j /\
    fires (bw_view R) nf s2 b j = fires (cl_view R) nf s1 x j.
  Proof.
    intros [_ Hm] Hx Hj.
    assert (fires (bw_view R) nf s2 b j = fires (cl_view R) nf s1 x j) as E.
    { apply eq_bool_prop_intro. rewrite !Is_true_true. rewrite fires_classic, fires_bitwise.
      split; intros H k Hk; specialize (H k Hk); rewrite (Hx k Hk), !Hm in * by lia.
      - rewrite !Z.leb_le in H. done. - rewrite !Z.leb_le. done. }
    split; [|done]. apply eq_bool_prop_intro. rewrite !Is_true_true. rewrite fires_pruned_classic, fires_pruned_bitwise, E.
    split; intros [H1 (k & Hk & H)]; (split; [done|]); exists k; (split; [done|]); rewrite !Hm in * by lia; rewrite !Z.leb_le in *; done.
  Qed.
  Lemma signed_votes_ext n f g w v : (forall j, (j < n)%nat -> f j = g j) -> (forall j, (j < n)%nat -> w j = v j) ->
    signed_votes n f w = signed_votes n g v.
  Proof. intros Hf Hw. induction n as [|n IH]; [done|]. cbn. rewrite Hf, Hw by lia. rewrite IH; [done| |]; intros; [apply Hf|apply Hw]; lia. Qed.
  Lemma total_votes_ext n f g w v : (forall j, (j < n)%nat -> f j = g j) -> (forall j, (j < n)%nat -> w j = v j) ->
    total_votes n f w = total_votes n g v.
  Proof. intros Hf Hw. induction n as [|n IH]; [done|]. cbn. rewrite Hf, Hw by lia. rewrite IH; [done| |]; intros; [apply Hf|apply Hw]; lia. Qed.
  Lemma votes_agree a L nf s1 s2 x b : same_model (L * clf_opl a) nf s1 s2 -> same_sample nf x b ->
    clf_votes (bw_view R) a L nf s2 b = clf_votes (cl_view R) a L nf s1 x.
  Proof.
    intros Hm Hx. unfold clf_votes. apply map_ext_in. intros l Hl%in_seq. unfold label_vote. f_equal.
    apply signed_votes_ext; intros j Hj.
    - eapply (fires_agree (L * clf_opl a)); [done|done|]. nia.
    - by rewrite (proj1 Hm).
  Qed.
  Lemma response_agree a nf s1 s2 x b : same_model (reg_n a) nf s1 s2 -> same_sample nf x b ->
    reg_response (bw_view R) a nf s2 b = reg_response (cl_view R) a nf s1 x.
  Proof.
    intros Hm Hx. unfold reg_response. f_equal. apply total_votes_ext; intros j Hj.
    - by eapply (fires_agree (reg_n a)).
    - by rewrite (proj1 Hm).
  Qed.
End Agree.
