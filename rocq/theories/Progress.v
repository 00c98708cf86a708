(** * Training on a sample never makes the answer for that sample worse (C80). *)
From Verif Require Import PropFacts HistFacts InvFacts StepFacts TrainFacts ToyTrain Relevance Learned.
From Coq Require Import Permutation.
From stdpp Require Import list.
Local Open Scope Z_scope.

Lemma iter_down_le N z d : Nat.iter d (down N) z <= z.
Proof. induction d as [|d IH]; [cbn; lia|]. cbn [Nat.iter nat_rect]. unfold down at 1. unfold Nat.iter in IH. destruct (_ <? _); lia. Qed.

(** ** How feedback moves the automata of one clause *)
Section Direction.
  Context {R : rnd} {A : algo R} (vw : aview A).
  Notation ta := (tastate (a_pol A)).
  Notation smp := (a_smp A).
  Notation w s j := (weight_of (ta_weights s) j).

  (** state before, state after, of a literal that is true (false) on the sample *)
  Definition directed (kind : Z) (fired lit : bool) (z z' : Z) : Prop :=
    if kind =? 1 then if fired then (if lit then z <= z' else z' <= z) else z' <= z
    else if (kind =? -1) && fired then (if lit then z' = z else z <= z')
    else z' = z.
  Definition directed_weight (kind : Z) (fired : bool) (z z' : Z) : Prop :=
    if kind =? 1 then z <= z' else if kind =? -1 then z' <= z else z' = z.
  Definition headed (nf : nat) (x : smp) (j : nat) (kind : Z) (fired : bool) (s s' : ta) : Prop :=
    (forall k, (k < nf)%nat -> directed kind fired (v_x vw x k) (pos_state s j k) (pos_state s' j k) /\
       directed kind fired (negb (v_x vw x k)) (neg_state s j k) (neg_state s' j k)) /\
    directed_weight kind fired (w s j) (w s' j).
  Lemma directed_refl kind fired lit z : directed kind fired lit z z.
  Proof. unfold directed. repeat case_match; lia. Qed.
  Lemma directed_trans kind fired lit z1 z2 z3 : directed kind fired lit z1 z2 -> directed kind fired lit z2 z3 -> directed kind fired lit z1 z3.
  Proof. unfold directed. repeat case_match; lia. Qed.
  Lemma headed_refl nf x j kind fired s : headed nf x j kind fired s s.
  Proof. split; [intros; split; apply directed_refl|]. unfold directed_weight. repeat case_match; lia. Qed.
  Lemma headed_trans nf x j kind fired s1 s2 s3 : headed nf x j kind fired s1 s2 -> headed nf x j kind fired s2 s3 -> headed nf x j kind fired s1 s3.
  Proof.
    intros [H1 W1] [H2 W2]. split.
    - intros k Hk. destruct (H1 k Hk), (H2 k Hk). split; by eapply directed_trans.
    - revert W1 W2. unfold directed_weight. repeat case_match; lia.
  Qed.
  Lemma untouched_headed nf x j kind fired s s' : clause_untouched vw nf j s s' -> headed nf x j kind fired s s'.
  Proof.
    intros [H W]. split.
    - intros k Hk. destruct (H k Hk) as (-> & -> & _). split; apply directed_refl.
    - rewrite W. unfold directed_weight. repeat case_match; lia.
  Qed.
  Lemma rule_headed (H : Z -> Prop) N wt b mw nf x j kind fired s s' : 0 <= w s j ->
    clause_rule vw H N wt b mw nf x j kind fired s s' -> headed nf x j kind fired s s'.
  Proof.
    intros Hw Hr. unfold clause_rule in Hr. unfold headed, directed, directed_weight. destruct (Z.eqb_spec kind 1) as [->|K1]; [destruct fired|].
    - destruct Hr as [(tp & tn & _ & _ & Hs) Ew]. split.
      + intros k Hk. destruct (Hs k Hk) as [-> ->]. unfold type1_fired, up, down. destruct (v_x vw x k); cbn [negb]; split; repeat case_match; lia.
      + rewrite Ew. unfold weight_up. destruct (_ && _); lia.
    - destruct Hr as [(dp & dn & _ & _ & Hs) Ew]. split; [|by rewrite Ew].
      intros k Hk. destruct (Hs k Hk) as [-> ->]. split; apply iter_down_le.
    - destruct (Z.eqb_spec kind (-1)) as [->|K2]; [destruct fired|]; cbn [andb] in *.
      + destruct Hr as [Hs Ew]. split.
        * intros k Hk. destruct (Hs k Hk) as [-> ->]. unfold type2. destruct (v_x vw x k); cbn [negb andb]; split; repeat case_match; lia.
        * rewrite Ew. unfold weight_down. lia.
      + destruct Hr as [Hs Ew]. split; [|lia]. intros k Hk. destruct (Hs k Hk) as (-> & -> & _). done.
      + destruct Hr as [Hs Ew]. split; [|lia]. intros k Hk. destruct (Hs k Hk) as (-> & -> & _). done.
  Qed.

  (** ** What that does to the clause, where included means a non-negative state *)
  Definition signs (n nf : nat) (s : ta) : Prop := forall j k, (j < n)%nat -> (k < nf)%nat ->
    v_inc vw (ta_matrix s) (ta_pol s) j k = (0 <=? pos_state s j k) /\ v_incn vw (ta_matrix s) (ta_pol s) j k = (0 <=? neg_state s j k).
  Lemma fires_signs n nf s x j : signs n nf s -> (j < n)%nat -> fires vw nf s x j = true <->
    forall k, (k < nf)%nat -> (0 <= pos_state s j k -> v_x vw x k = true) /\ (0 <= neg_state s j k -> v_x vw x k = false).
  Proof.
    intros Hs Hj. unfold fires. rewrite clause_true_iff. split; intros H k Hk; destruct (H k Hk) as [H1 H2]; destruct (Hs j k Hj Hk) as [E1 E2].
    - rewrite E1 in H1. rewrite E2 in H2. split; intros Z0; [apply H1|apply H2]; by apply Z.leb_le.
    - rewrite E1, E2. split; intros Z0%Z.leb_le; auto.
  Qed.
  Lemma nonempty_signs n nf s j : signs n nf s -> (j < n)%nat ->
    clause_nonempty nf (v_inc vw (ta_matrix s) (ta_pol s) j) (v_incn vw (ta_matrix s) (ta_pol s) j) = true <->
    exists k, (k < nf)%nat /\ (0 <= pos_state s j k \/ 0 <= neg_state s j k).
  Proof.
    intros Hs Hj. rewrite clause_nonempty_iff. split; intros (k & Hk & H); exists k; (split; [done|]); destruct (Hs j k Hj Hk) as [E1 E2].
    - rewrite E1, E2, !Z.leb_le in H. done.
    - rewrite E1, E2, !Z.leb_le. done.
  Qed.
  Lemma pruned_signs n nf s x j : signs n nf s -> (j < n)%nat -> fires_pruned vw nf s x j = true <-> fires vw nf s x j = true /\
    exists k, (k < nf)%nat /\ (0 <= pos_state s j k \/ 0 <= neg_state s j k).
  Proof. intros Hs Hj. unfold fires_pruned. rewrite andb_true_iff. by rewrite (nonempty_signs n nf s j Hs Hj). Qed.

  (** Type I feedback keeps a clause firing on the sample, Type II does not make it fire *)
  Lemma up_fires n nf x j s s' : signs n nf s -> signs n nf s' -> (j < n)%nat -> headed nf x j 1 (fires vw nf s x j) s s' ->
    fires vw nf s x j = true -> fires vw nf s' x j = true.
  Proof.
    intros H1 H2 Hj [Hh _] Hf. rewrite Hf in Hh. apply (fires_signs n nf s' x j H2 Hj). pose proof (proj1 (fires_signs n nf s x j H1 Hj) Hf) as F. clear Hf. rename F into Hf.
    intros k Hk. specialize (Hf k Hk). destruct (Hh k Hk) as [D1 D2]. unfold directed in D1, D2. cbn in D1, D2.
    destruct (v_x vw x k); cbn in D2; (split; [intros P|intros P]; try done; exfalso); [assert (0 <= neg_state s j k) by lia|assert (0 <= pos_state s j k) by lia];
      destruct Hf as [F1 F2]; [specialize (F2 ltac:(lia))|specialize (F1 ltac:(lia))]; done.
  Qed.
  Lemma up_pruned n nf x j s s' : signs n nf s -> signs n nf s' -> (j < n)%nat -> headed nf x j 1 (fires vw nf s x j) s s' ->
    fires_pruned vw nf s x j = true -> fires_pruned vw nf s' x j = true.
  Proof.
    intros H1 H2 Hj Hh Hf. rewrite (pruned_signs n) in Hf |- * by done. destruct Hf as [Hf (k & Hk & Hp)].
    split; [exact (up_fires n nf x j s s' H1 H2 Hj Hh Hf)|]. exists k. split; [done|]. destruct Hh as [Hh _]. rewrite Hf in Hh.
    destruct (proj1 (fires_signs n nf s x j H1 Hj) Hf k Hk) as [F1 F2]. destruct (Hh k Hk) as [D1 D2]. unfold directed in D1, D2. cbn in D1, D2.
    destruct Hp as [Hp|Hp]; [left; rewrite (F1 Hp) in D1; lia|right; rewrite (F2 Hp) in D2; cbn in D2; lia].
  Qed.
  Lemma down_fires n nf x j s s' : signs n nf s -> signs n nf s' -> (j < n)%nat -> headed nf x j (-1) (fires vw nf s x j) s s' ->
    fires vw nf s' x j = true -> fires vw nf s x j = true.
  Proof.
    intros H1 H2 Hj [Hh _] Hf. destruct (fires vw nf s x j) eqn:E; [done|]. exfalso.
    assert (fires vw nf s x j = true) as E'; [|congruence]. apply (fires_signs n nf s x j H1 Hj).
    pose proof (proj1 (fires_signs n nf s' x j H2 Hj) Hf) as F. intros k Hk. destruct (Hh k Hk) as [D1 D2]. unfold directed in D1, D2. cbn in D1, D2.
    rewrite D1, D2 in F || (specialize (F k Hk); rewrite D1, D2 in F). exact F.
  Qed.
  Lemma down_pruned n nf x j s s' : signs n nf s -> signs n nf s' -> (j < n)%nat -> headed nf x j (-1) (fires vw nf s x j) s s' ->
    fires_pruned vw nf s' x j = true -> fires_pruned vw nf s x j = true.
  Proof.
    intros H1 H2 Hj Hh Hf. rewrite (pruned_signs n) in Hf |- * by done. destruct Hf as [Hf (k & Hk & Hp)].
    assert (fires vw nf s x j = true) as F by exact (down_fires n nf x j s s' H1 H2 Hj Hh Hf). split; [done|]. exists k. split; [done|]. destruct Hh as [Hh _]. rewrite F in Hh.
    destruct (proj1 (fires_signs n nf s' x j H2 Hj) Hf k Hk) as [F1 F2]. destruct (Hh k Hk) as [D1 D2]. unfold directed in D1, D2. cbn in D1, D2.
    destruct Hp as [Hp|Hp]; [left; rewrite (F1 Hp) in D1; lia|right; rewrite (F2 Hp) in D2; cbn in D2; lia].
  Qed.
  Lemma still_pruned n nf x j kind s s' : signs n nf s -> signs n nf s' -> (j < n)%nat -> headed nf x j kind (fires vw nf s x j) s s' ->
    kind <> 1 -> kind <> -1 -> fires_pruned vw nf s' x j = fires_pruned vw nf s x j.
  Proof.
    intros H1 H2 Hj [Hh _] K1 K2. apply eq_bool_prop_intro. unfold Is_true.
    assert (forall k, (k < nf)%nat -> pos_state s' j k = pos_state s j k /\ neg_state s' j k = neg_state s j k) as E.
    { intros k Hk. destruct (Hh k Hk) as [D1 D2]. unfold directed in D1, D2. rewrite (proj2 (Z.eqb_neq _ _) K1), (proj2 (Z.eqb_neq _ _) K2) in D1, D2. done. }
    assert (fires_pruned vw nf s' x j = true <-> fires_pruned vw nf s x j = true) as Q.
    { rewrite !(pruned_signs n) by done. rewrite !(fires_signs n) by done. split; intros [Q1 (k & Hk & Q2)]; (split; [|exists k; split; [done|]; destruct (E k Hk) as [-> ->] || destruct (E k Hk) as [E1 E2]; rewrite ?E1, ?E2 in *; done]);
        intros i Hi; specialize (Q1 i Hi); destruct (E i Hi) as [E1 E2]; rewrite E1, E2 in *; done. }
    destruct (fires_pruned vw nf s' x j), (fires_pruned vw nf s x j); try done; destruct Q as [Q1 Q2]; [by specialize (Q1 eq_refl)|by specialize (Q2 eq_refl)].
  Qed.

  (** ** Votes of one clause *)
  Definition clause_votes (nf : nat) (s : ta) (x : smp) (j : nat) : Z := if fires_pruned vw nf s x j then 1 + w s j else 0.
  Lemma votes_headed n nf x j kind s s' : signs n nf s -> signs n nf s' -> (j < n)%nat -> 0 <= w s j -> 0 <= w s' j ->
    headed nf x j kind (fires vw nf s x j) s s' ->
    directed_weight kind true (clause_votes nf s x j) (clause_votes nf s' x j).
  Proof.
    intros H1 H2 Hj W1 W2 Hh. pose proof Hh as [_ Hw]. unfold directed_weight, clause_votes in *. destruct (Z.eqb_spec kind 1) as [->|K1].
    - pose proof (up_pruned n nf x j s s' H1 H2 Hj Hh) as P. destruct (fires_pruned vw nf s x j); [rewrite P by done; lia|]. case_match; lia.
    - destruct (Z.eqb_spec kind (-1)) as [->|K2].
      + pose proof (down_pruned n nf x j s s' H1 H2 Hj Hh) as P. destruct (fires_pruned vw nf s' x j); [rewrite P by done; lia|]. case_match; lia.
      + rewrite (still_pruned n nf x j kind s s') by done. by rewrite Hw.
  Qed.
End Direction.

(** ** Sums of votes *)
Lemma signed_votes_up k (f f' : nat -> bool) (v v' : nat -> Z) : (forall j, (j < k)%nat ->
    let a := if f j then 1 + v j else 0 in let b := if f' j then 1 + v' j else 0 in if Nat.even j then a <= b else b <= a) ->
  signed_votes k f v <= signed_votes k f' v'.
Proof.
  induction k as [|k IH]; intros H; cbn [signed_votes]; [lia|]. specialize (IH ltac:(intros; apply H; lia)). specialize (H k ltac:(lia)). cbn in H.
  destruct (f k), (f' k), (Nat.even k); lia.
Qed.
Lemma total_votes_up k (f f' : nat -> bool) (v v' : nat -> Z) : (forall j, (j < k)%nat -> (if f j then 1 + v j else 0) <= (if f' j then 1 + v' j else 0)) ->
  total_votes k f v <= total_votes k f' v'.
Proof.
  induction k as [|k IH]; intros H; cbn [total_votes]; [lia|]. specialize (IH ltac:(intros; apply H; lia)). specialize (H k ltac:(lia)). cbn in H.
  destruct (f k), (f' k); lia.
Qed.
Lemma clamp_mono lo hi u v : u <= v -> clamp lo hi u <= clamp lo hi v.
Proof. unfold clamp. lia. Qed.
(** the first largest value stays first when it grows and the others shrink *)
Lemma first_max_kept (v v' : list Z) t : length v' = length v -> first_max v t ->
  (forall a b, v !! t = Some a -> v' !! t = Some b -> a <= b) ->
  (forall l a b, l <> t -> v !! l = Some a -> v' !! l = Some b -> b <= a) -> first_max v' t.
Proof.
  intros El (m & Em & Hm & Hf) Ht Ho.
  destruct (lookup_lt_is_Some_2 v' t) as [b Eb]; [rewrite El; by eapply lookup_lt_Some|]. specialize (Ht m b Em Eb).
  assert (forall l c, l <> t -> v' !! l = Some c -> exists a, v !! l = Some a /\ c <= a) as Q.
  { intros l c Hl Ec. destruct (lookup_lt_is_Some_2 v l) as [a Ea]; [rewrite <- El; by eapply lookup_lt_Some|]. eauto. }
  exists b. split; [done|]. split.
  - intros i u Eu. destruct (decide (i = t)) as [->|Hi]; [by simplify_eq|]. destruct (Q i u Hi Eu) as (a & Ea & ?). specialize (Hm i a Ea). lia.
  - intros i u Hi Eu. destruct (Q i u ltac:(lia) Eu) as (a & Ea & ?). specialize (Hf i a Hi Ea). lia.
Qed.

Section Answers.
  Context {R : rnd} (g_ok : eG R -> Prop) (f_ok : eF R -> Prop) (HR : rnd_ok R g_ok f_ok).
  Context (S : sch) (HS : sch_ok S) (A : algo R) (vw : aview A).
  Notation est := (est (a_pol A) (eS S) (eG R) (eF R)).

  (** ** Included literals of a reachable estimator are the automata with a non-negative state *)
  Lemma clf_signs a p os rs (e : est) L nf : trains_well R (ca_states a) A vw -> clf_created a p -> clf_history S A vw p os rs e ->
    clf_dims_of os rs = Some (L, nf) -> signs vw (L * clf_opl a) nf (e_ta e).
  Proof using HR HS.
    intros Hw Hc Hh Hd. destruct (clf_shape g_ok f_ok HR S HS A vw (trains_well_algo _ _ _ _ Hw) a p os rs e L nf Hc Hh Hd) as (_ & Er & Ec).
    destruct (clf_opl_facts a (cc_valid _ _ Hc)) as (Eo & _). destruct Hw as [|H2]; intros j k Hj Hk; [done|].
    destruct (clf_bitwise_range g_ok f_ok HR S HS a p os rs e Hc H2 Hh) as [_ (_ & _ & Q & _)].
    cbn [v_inc v_incn bw_view]. unfold pol_inc, pol_incn, pos_state, neg_state. split; apply Q; nia.
  Qed.
  Lemma reg_signs a p os rs (e : est) nf : trains_well R (ra_states a) A vw -> reg_created a p -> reg_history S A vw p os rs e ->
    reg_dims_of os rs = Some nf -> signs vw (reg_n a) nf (e_ta e).
  Proof using HR HS.
    intros Hw Hc Hh Hd. destruct (reg_shape g_ok f_ok HR S HS A vw (trains_well_algo _ _ _ _ Hw) a p os rs e nf Hc Hh Hd) as (_ & Er & Ec).
    destruct (reg_n_facts a (rc_valid _ _ Hc)) as (Eo & _). destruct Hw as [|H2]; intros j k Hj Hk; [done|].
    destruct (reg_bitwise_range g_ok f_ok HR S HS a p os rs e Hc H2 Hh) as [_ (_ & _ & Q & _)].
    cbn [v_inc v_incn bw_view]. unfold pol_inc, pol_incn, pos_state, neg_state. split; apply Q; nia.
  Qed.
  Lemma clf_weight_pos a p os rs (e : est) j : tsetlini_algo R A vw -> clf_created a p -> clf_history S A vw p os rs e ->
    0 <= weight_of (ta_weights (e_ta e)) j.
  Proof using HR HS.
    intros HA Hc Hh. pose proof (clf_weights g_ok f_ok HR S HS A vw HA a p os rs e Hc Hh) as W.
    apply (weight_pos (ca_weighted a) (ca_max_weight a)). destruct (ca_weighted a); [by destruct W|done].
  Qed.
  Lemma reg_weight_pos a p os rs (e : est) j : tsetlini_algo R A vw -> reg_created a p -> reg_history S A vw p os rs e ->
    0 <= weight_of (ta_weights (e_ta e)) j.
  Proof using HR HS.
    intros HA Hc Hh. pose proof (reg_weights g_ok f_ok HR S HS A vw HA a p os rs e Hc Hh) as W.
    apply (weight_pos (ra_weighted a) (ra_max_weight a)). destruct (ra_weighted a); [by destruct W|done].
  Qed.

  (** ** Classifier, one epoch *)
  Lemma clf_one_progress a p os rs (e e' : est) L nf x t ml :
    trains_well R (ca_states a) A vw -> clf_created a p -> clf_history S A vw p os rs e -> clf_dims_of os rs = Some (L, nf) ->
    v_phys vw x -> clf_partial_fit S A e [x] [t] ml 1 = Ret (S_OK, e') ->
    exists tn, t = Z.of_nat tn /\ (tn < L)%nat /\ forall l, (l < L)%nat ->
      let v s := label_vote (clf_opl a) (ca_threshold a) (fires_pruned vw nf s x) (ta_weights s) l in
      if Nat.eq_dec l tn then v (e_ta e) <= v (e_ta e') else v (e_ta e') <= v (e_ta e).
  Proof using HR HS.
    intros Hw Hc Hh Hd Px E. pose proof (trains_well_algo _ _ _ _ Hw) as HA.
    destruct (clf_one_update g_ok f_ok HR S HS A vw a p os rs e e' L nf x t ml Hw Hc Hh Hd Px E) as (tn & o & -> & Ht & Ho & Hne & _ & Hu).
    destruct (clf_dims_kept S A vw os rs L nf [x] [Z.of_nat tn] ml 1 e e' p Hh Hd) as [Hh' Hd']; [by constructor|done|].
    pose proof (clf_signs a p os rs e L nf Hw Hc Hh Hd) as S1. pose proof (clf_signs a p _ _ e' L nf Hw Hc Hh' Hd') as S2.
    destruct (clf_opl_facts a (cc_valid _ _ Hc)) as (_ & _ & Hev & Hopl).
    exists tn. split; [done|]. split; [done|]. intros l Hl v. subst v. cbv beta.
    assert (forall j, (j < L * clf_opl a)%nat -> directed_weight (clf_feedback vw a nf (f_draw R (e_fgen e)) (e_ta e) x tn o j) true
      (clause_votes vw nf (e_ta e) x j) (clause_votes vw nf (e_ta e') x j)) as V.
    { intros j Hj. eapply votes_headed; [exact S1|exact S2|done| | |].
      - by eapply clf_weight_pos. - by eapply clf_weight_pos.
      - eapply rule_headed; [by eapply clf_weight_pos|]. by apply Hu. }
    assert (forall j, Nat.even (l * clf_opl a + j) = Nat.even j) as Ev.
    { intros j. rewrite Nat.even_add, Nat.even_mul, Hev, orb_true_r. by destruct (Nat.even j). }
    unfold clf_feedback, feedback_to, directed_weight, clause_votes in V. change (Z.to_nat (ca_clauses a / 2)) with (clf_opl a) in V.
    unfold label_vote. destruct (Nat.eq_dec l tn) as [->|Hlt]; apply clamp_mono, signed_votes_up; intros j Hj; cbv zeta beta.
    - specialize (V (tn * clf_opl a + j)%nat ltac:(nia)). rewrite decide_True in V by lia. rewrite Ev in V.
      destruct (Nat.even j), (f_gt _ _); cbn [Z.eqb Pos.eqb] in V; lia.
    - specialize (V (l * clf_opl a + j)%nat ltac:(nia)). rewrite decide_False in V by nia. rewrite Ev in V.
      case_decide; destruct (Nat.even j); try destruct (f_gt _ _); cbn [Z.eqb Pos.eqb] in V; lia.
  Qed.
  (** ** Several epochs: one after the other *)
  Lemma clf_partial_split a p os rs (e e' : est) L nf X y ml n m :
    tsetlini_algo R A vw -> clf_created a p -> clf_history S A vw p os rs e -> clf_dims_of os rs = Some (L, nf) ->
    Forall (v_phys vw) X -> clf_partial_fit S A e X y ml (n + m) = Ret (S_OK, e') ->
    exists e1, clf_partial_fit S A e X y ml n = Ret (S_OK, e1) /\ clf_partial_fit S A e1 X y ml m = Ret (S_OK, e').
  Proof using HR HS.
    intros HA Hc Hh Hd HX Q. pose proof (cc_valid _ _ Hc) as Ha.
    destruct (clf_hist_laws g_ok f_ok HR A vw HA a Ha) as (I & E1n & E1p & E2 & Lw).
    pose proof (clf_history_at g_ok f_ok HR S HS A vw _ _ I E1n E1p E2 Lw a p os rs e Hc eq_refl eq_refl Hh) as Hat.
    rewrite Hd in Hat. destruct Hat as [Hfit _].
    destruct (HistFacts.clf_answers g_ok f_ok HR S HS A vw HA a p os rs e (CPartialFit A X y ml (n + m)) (CRStatus S_OK) e' Hc Hh HX) as [Han _].
    { cbn [clf_step]. by rewrite Q. }
    rewrite Hd in Han. cbn [clf_answer] in Han. destruct Han as [[Hm _]|[_ E]]; [|done].
    assert (forall k, clf_partial_fit S A e X y ml k = clf_fit_online S A e X y k) as Ek.
    { intros k. unfold clf_partial_fit. rewrite (clf_fitted_true g_ok f_ok S A vw True True _ _ I E1n E1p E2 (Lw True True) a Ha e L nf Hfit).
      apply (clf_checked_online g_ok S A vw g_ok f_ok True True I a e L nf X y ml k); [by eauto 10|done..]. }
    rewrite Ek, clf_online_split in Q. apply obind_ret_inv in Q as ([st e1] & Q1 & Q2).
    assert (st = S_OK) as ->.
    { unfold clf_fit_online in Q1. repeat (apply obind_ret_inv in Q1 as (? & _ & Q1)). destruct_and?. repeat case_match. by injection Q1 as <- _. }
    assert (clf_partial_fit S A e X y ml n = Ret (S_OK, e1)) as P1 by (by rewrite Ek). exists e1. split; [done|].
    destruct (clf_dims_kept S A vw os rs L nf X y ml n e e1 p Hh Hd HX P1) as [Hh1 Hd1].
    pose proof (clf_history_at g_ok f_ok HR S HS A vw _ _ I E1n E1p E2 Lw a p _ _ e1 Hc eq_refl eq_refl Hh1) as Hat1.
    rewrite Hd1 in Hat1. destruct Hat1 as [Hfit1 _].
    unfold clf_partial_fit. rewrite (clf_fitted_true g_ok f_ok S A vw True True _ _ I E1n E1p E2 (Lw True True) a Ha e1 L nf Hfit1).
    rewrite (clf_checked_online g_ok S A vw g_ok f_ok True True I a e1 L nf X y ml m); [done|by eauto 10|done..].
  Qed.
  Lemma clf_progress a p os rs (e e' : est) L nf x t ml n :
    trains_well R (ca_states a) A vw -> clf_created a p -> clf_history S A vw p os rs e -> clf_dims_of os rs = Some (L, nf) ->
    v_phys vw x -> clf_partial_fit S A e [x] [t] ml n = Ret (S_OK, e') ->
    exists tn, t = Z.of_nat tn /\ (tn < L)%nat /\ forall l, (l < L)%nat ->
      let v s := label_vote (clf_opl a) (ca_threshold a) (fires_pruned vw nf s x) (ta_weights s) l in
      if Nat.eq_dec l tn then v (e_ta e) <= v (e_ta e') else v (e_ta e') <= v (e_ta e).
  Proof using HR HS.
    intros Hw Hc. revert os rs e. induction n as [|n IH]; intros os rs e Hh Hd Px E.
    - destruct (clf_more_trace g_ok f_ok HR S HS A vw a p os rs e e' L nf [x] [t] ml 0 Hw Hc Hh Hd) as (viss & El & _ & Hu); [by constructor|done|].
      destruct viss; [|done]. cbn [concat] in Hu. inversion Hu as [st E1 E2|]. 
      destruct (HistFacts.clf_answers g_ok f_ok HR S HS A vw (trains_well_algo _ _ _ _ Hw) a p os rs e (CPartialFit A [x] [t] ml 0) (CRStatus S_OK) e' Hc Hh) as [Han _];
        [by constructor|cbn [clf_step]; by rewrite E|].
      rewrite Hd in Han. cbn [clf_answer] in Han. destruct Han as [[[_ Hy] _]|[_ ?]]; [|done]. rewrite Forall_singleton in Hy.
      exists (Z.to_nat t). split; [lia|]. split; [lia|]. intros l _ v. destruct (Nat.eq_dec _ _); lia.
    - change (Datatypes.S n) with (1 + n)%nat in E.
      destruct (clf_partial_split a p os rs e e' L nf [x] [t] ml 1 n (trains_well_algo _ _ _ _ Hw) Hc Hh Hd) as (e1 & Q1 & Q2); [by constructor|done|].
      destruct (clf_one_progress a p os rs e e1 L nf x t ml Hw Hc Hh Hd Px Q1) as (tn & Et & Ht & P1).
      destruct (clf_dims_kept S A vw os rs L nf [x] [t] ml 1 e e1 p Hh Hd) as [Hh1 Hd1]; [by constructor|done|].
      destruct (IH _ _ e1 Hh1 Hd1 Px Q2) as (tn' & Et' & _ & P2). assert (tn' = tn) as -> by lia.
      exists tn. split; [done|]. split; [done|]. intros l Hl v. specialize (P1 l Hl). specialize (P2 l Hl). cbv zeta beta in P1, P2. subst v. cbv beta.
      destruct (Nat.eq_dec l tn); lia.
  Qed.
  Lemma clf_progress_call a p os rs (e e' : est) L nf x t ml n :
    trains_well R (ca_states a) A vw -> clf_created a p -> clf_history S A vw p os rs e -> clf_dims_of os rs = Some (L, nf) ->
    v_phys vw x -> clf_partial_fit S A e [x] [t] ml n = Ret (S_OK, e') ->
    exists v v' r r' e1 e2 e3 e4,
      clf_decision1 S A e x = Ret (Right v, e1) /\ clf_decision1 S A e' x = Ret (Right v', e2) /\
      clf_predict1 S A e x = Ret (Right r, e3) /\ clf_predict1 S A e' x = Ret (Right r', e4) /\
      length v = L /\ length v' = L /\ 0 <= t < Z.of_nat L /\
      (forall l b b', v !! l = Some b -> v' !! l = Some b' -> if Z.of_nat l =? t then b <= b' else b' <= b) /\
      (r = t -> r' = t).
  Proof using HR HS.
    intros Hw Hc Hh Hd Px E. pose proof (trains_well_algo _ _ _ _ Hw) as HA.
    destruct (clf_progress a p os rs e e' L nf x t ml n Hw Hc Hh Hd Px E) as (tn & -> & Ht & P).
    destruct (clf_dims_kept S A vw os rs L nf [x] [Z.of_nat tn] ml n e e' p Hh Hd) as [Hh' Hd']; [by constructor|done|].
    assert (v_ok vw nf x) as Vx.
    { destruct (HistFacts.clf_answers g_ok f_ok HR S HS A vw HA a p os rs e (CPartialFit A [x] [Z.of_nat tn] ml n) (CRStatus S_OK) e' Hc Hh) as [Han _];
        [by constructor|cbn [clf_step]; by rewrite E|].
      rewrite Hd in Han. cbn [clf_answer] in Han. destruct Han as [[[[[_ HXo] _] _] _]|[_ ?]]; [|done]. by rewrite Forall_singleton in HXo. }
    destruct (Relevance.clf_answers g_ok f_ok HR S HS A vw HA a p os rs e Hc Hh L nf Hd x Px Vx) as [(e1 & D1) (e2 & D2)].
    destruct (Relevance.clf_answers g_ok f_ok HR S HS A vw HA a p _ _ e' Hc Hh' L nf Hd' x Px Vx) as [(e3 & D3) (e4 & D4)].
    eexists _, _, _, _, _, _, _, _. split; [exact D1|]. split; [exact D3|]. split; [exact D2|]. split; [exact D4|].
    assert (forall s, length (clf_votes vw a L nf s x) = L) as Len by (intros s; unfold clf_votes; by rewrite map_length, seq_length).
    split; [apply Len|]. split; [apply Len|]. split; [lia|].
    assert (forall l b b', clf_votes vw a L nf (e_ta e) x !! l = Some b -> clf_votes vw a L nf (e_ta e') x !! l = Some b' ->
      if Nat.eq_dec l tn then b <= b' else b' <= b) as Q.
    { intros l b b' H1 H2. pose proof (lookup_lt_Some _ _ _ H1) as Hl. rewrite Len in Hl. specialize (P l Hl). cbv zeta beta in P.
      unfold clf_votes in H1, H2. rewrite list_lookup_fmap, lookup_seq_lt in H1, H2 by done. cbn [fmap option_fmap option_map Nat.add] in H1, H2.
      injection H1 as <-. injection H2 as <-. exact P. }
    split.
    - intros l b b' H1 H2. specialize (Q l b b' H1 H2). destruct (Nat.eq_dec l tn), (Z.eqb_spec (Z.of_nat l) (Z.of_nat tn)); lia.
    - unfold clf_label. intros Er%Nat2Z.inj. f_equal.
      assert (forall s, clf_votes vw a L nf s x <> []) as Hn.
      { intros s En. pose proof (Len s) as K. rewrite En in K. cbn in K. lia. }
      pose proof (argmax_spec _ (Hn (e_ta e))) as M. rewrite Er in M. apply (first_max_unique _ _ _ (argmax_spec _ (Hn (e_ta e')))).
      eapply first_max_kept; [|exact M| |]; [by rewrite !Len| |].
      + intros b b' H1 H2. specialize (Q tn b b' H1 H2). by destruct (Nat.eq_dec tn tn).
      + intros l b b' Hl H1 H2. specialize (Q l b b' H1 H2). by destruct (Nat.eq_dec l tn).
  Qed.

  (** ** Regressor, one epoch *)
  Lemma picks_headed a nf x kind fire js s s' : reg_picks vw a nf x kind fire js s s' ->
    (forall j, (j < reg_n a)%nat -> 0 <= weight_of (ta_weights s) j) ->
    forall j, (j < reg_n a)%nat -> headed vw nf x j kind (fire j) s s'.
  Proof using.
    induction 1 as [s|j js s s1 s2 Hj Hr Hu _ IH]; intros Hw i Hi; [apply headed_refl|].
    eapply headed_trans.
    - destruct (decide (i = j)) as [->|Hne]; [eapply rule_headed; [|exact Hr]; auto|]. by apply untouched_headed, Hu.
    - apply IH; [|done]. intros k Hk. destruct (decide (k = j)) as [->|Hne].
      + by eapply rule_weight; [|exact Hr]; auto.
      + destruct (Hu k Hk Hne) as [_ ->]. auto.
  Qed.
  Lemma reg_one_progress a p os rs (e e' : est) nf x y :
    trains_well R (ra_states a) A vw -> reg_created a p -> reg_history S A vw p os rs e -> reg_dims_of os rs = Some nf ->
    v_phys vw x -> reg_partial_fit S A e [x] [y] 1 = Ret (S_OK, e') ->
    let r := train_response vw a nf (e_ta e) x in
    let b := reg_response vw a nf (e_ta e) x in
    let b' := reg_response vw a nf (e_ta e') x in
    (r < y -> b <= b') /\ (r = y -> b' = b) /\ (y < r -> b' <= b).
  Proof using HR HS.
    intros Hw Hc Hh Hd Px E. pose proof (trains_well_algo _ _ _ _ Hw) as HA.
    pose proof (reg_one_update g_ok f_ok HR S HS A vw a p os rs e e' nf x y Hw Hc Hh Hd Px E) as Hu.
    destruct (reg_dims_kept S A vw os rs nf [x] [y] 1 e e' p Hh Hd) as [Hh' Hd']; [by constructor|done|].
    pose proof (reg_signs a p os rs e nf Hw Hc Hh Hd) as S1. pose proof (reg_signs a p _ _ e' nf Hw Hc Hh' Hd') as S2.
    destruct Hu as [_ [Hs Hp]]. fold (train_response vw a nf (e_ta e) x) in Hs, Hp. intros r b b'. fold r in Hs, Hp.
    assert (r <> y -> forall j, (j < reg_n a)%nat ->
      directed_weight (if r <? y then 1 else -1) true (clause_votes vw nf (e_ta e) x j) (clause_votes vw nf (e_ta e') x j)) as V.
    { intros Hne. destruct (Hp Hne) as (js & _ & _ & Hpk). intros j Hj. eapply votes_headed; [exact S1|exact S2|done| | |].
      - by eapply reg_weight_pos. - by eapply reg_weight_pos.
      - refine (picks_headed a nf x _ _ js _ _ Hpk _ j Hj). intros i _. by eapply reg_weight_pos. }
    subst b b'. unfold reg_response, directed_weight, clause_votes in *. split; [|split]; intros Hr.
    - specialize (V ltac:(lia)). rewrite (proj2 (Z.ltb_lt _ _) Hr) in V. cbn [Z.eqb Pos.eqb] in V. apply clamp_mono, total_votes_up. exact V.
    - by rewrite (Hs Hr).
    - specialize (V ltac:(lia)). rewrite (proj2 (Z.ltb_ge _ _)) in V by lia. cbn [Z.eqb Pos.eqb] in V. apply clamp_mono, total_votes_up. exact V.
  Qed.
  (** clauses without literals count in training but not in predictions *)
  Lemma train_above a nf (s : tastate (a_pol A)) x : (forall j, 0 <= weight_of (ta_weights s) j) -> reg_response vw a nf s x <= train_response vw a nf s x.
  Proof using.
    intros Hw. unfold reg_response, train_response, reg_n. apply clamp_mono, total_votes_up. intros j _. unfold fires_pruned. specialize (Hw j).
    destruct (fires vw nf s x j) eqn:F; cbn [andb]; [destruct (clause_nonempty _ _ _)|]; lia || (unfold fires in F; rewrite F; cbn; lia).
  Qed.
  Lemma reg_progress_call a p os rs (e e' : est) nf x y :
    trains_well R (ra_states a) A vw -> reg_created a p -> reg_history S A vw p os rs e -> reg_dims_of os rs = Some nf ->
    v_phys vw x -> reg_partial_fit S A e [x] [y] 1 = Ret (S_OK, e') ->
    let r := train_response vw a nf (e_ta e) x in
    exists b b' e1 e2, reg_predict1 S A e x = Ret (Right b, e1) /\ reg_predict1 S A e' x = Ret (Right b', e2) /\
      (r < y -> b <= b') /\ (r = y -> b' = b) /\ (y < r -> b' <= b) /\
      (y <= b -> b' <= b) /\
      ((forall j, (j < Z.to_nat (ra_clauses a / 2))%nat -> exists k, (k < nf)%nat /\ mentions A vw (e_ta e) j k) -> b <= y -> b <= b').
  Proof using HR HS.
    intros Hw Hc Hh Hd Px E r. pose proof (trains_well_algo _ _ _ _ Hw) as HA.
    destruct (reg_one_progress a p os rs e e' nf x y Hw Hc Hh Hd Px E) as (P1 & P2 & P3). fold r in P1, P2, P3.
    destruct (reg_dims_kept S A vw os rs nf [x] [y] 1 e e' p Hh Hd) as [Hh' Hd']; [by constructor|done|].
    assert (v_ok vw nf x) as Vx.
    { destruct (HistFacts.reg_answers g_ok f_ok HR S HS A vw HA a p os rs e (RPartialFit A [x] [y] 1) (RRStatus S_OK) e' Hc Hh) as [Han _];
        [by constructor|cbn [reg_step]; by rewrite E|].
      rewrite Hd in Han. cbn [EstStep.reg_answer] in Han. destruct Han as [[[[[_ HXo] _] _] _]|[_ ?]]; [|done]. by rewrite Forall_singleton in HXo. }
    destruct (Relevance.reg_answer g_ok f_ok HR S HS A vw HA a p os rs e Hc Hh nf Hd x Px Vx) as [e1 D1].
    destruct (Relevance.reg_answer g_ok f_ok HR S HS A vw HA a p _ _ e' Hc Hh' nf Hd' x Px Vx) as [e2 D2].
    exists (reg_response vw a nf (e_ta e) x), (reg_response vw a nf (e_ta e') x), e1, e2. split; [done|]. split; [done|].
    split; [done|]. split; [done|]. split; [done|]. split.
    - intros Hy. pose proof (train_above a nf (e_ta e) x (fun j => reg_weight_pos a p os rs e j HA Hc Hh)) as T. fold r in T.
      destruct (Z.eq_dec r y) as [Er|Er]; [rewrite P2 by done; lia|]. apply P3. lia.
    - intros Hm Hy. pose proof (full_response A vw a nf (e_ta e) x Hm) as F. fold r in F. rewrite F in *. 
      destruct (Z.eq_dec r y) as [Er|Er]; [rewrite P2 by done; lia|]. apply P1. lia.
  Qed.
End Answers.
