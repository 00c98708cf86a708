(** * Training calls seen from outside: samples that are already learned change nothing (C77), automata and weights drift slowly (C78). *)
From Verif Require Import PropFacts HistFacts InvFacts StepFacts FloatFacts FloatProps Relevance.
From Coq Require Import Permutation.
From stdpp Require Import list.
Local Open Scope Z_scope.

(** ** Clauses that are not touched *)
Section Untouched.
  Context {R : rnd} {A : algo R} (vw : aview A).
  Notation ta := (tastate (a_pol A)).
  Lemma untouched_refl nf j (s : ta) : clause_untouched vw nf j s s.
  Proof. split; [|done]. intros k Hk. tauto. Qed.
  Lemma untouched_trans nf j (s1 s2 s3 : ta) : clause_untouched vw nf j s1 s2 -> clause_untouched vw nf j s2 s3 -> clause_untouched vw nf j s1 s3.
  Proof.
    intros [H1 W1] [H2 W2]. split; [|congruence]. intros k Hk. destruct (H1 k Hk) as (a1 & a2 & a3 & a4), (H2 k Hk) as (b1 & b2 & b3 & b4).
    rewrite b1, b2, b3, b4. done.
  Qed.
  Lemma untouched_fires nf j (s s' : ta) x : clause_untouched vw nf j s s' -> fires vw nf s' x j = fires vw nf s x j.
  Proof.
    intros [H _]. unfold fires. apply eq_bool_prop_intro. rewrite !Is_true_true, !clause_true_iff.
    split; intros Q k Hk; destruct (H k Hk) as (_ & _ & E1 & E2); specialize (Q k Hk); rewrite ?E1, ?E2 in *; done.
  Qed.
  Lemma untouched_pruned nf j (s s' : ta) x : clause_untouched vw nf j s s' -> fires_pruned vw nf s' x j = fires_pruned vw nf s x j.
  Proof.
    intros H. unfold fires_pruned. rewrite (untouched_fires nf j s s' x H). f_equal. destruct H as [H _].
    apply eq_bool_prop_intro. rewrite !Is_true_true, !clause_nonempty_iff.
    split; intros (k & Hk & Q); exists k; (split; [done|]); destruct (H k Hk) as (_ & _ & E1 & E2); rewrite ?E1, ?E2 in *; done.
  Qed.
  Lemma untouched_votes (a : clf_args) L nf (s s' : ta) x : (forall j, (j < L * Z.to_nat (ca_clauses a / 2))%nat -> clause_untouched vw nf j s s') ->
    clf_votes vw a L nf s' x = clf_votes vw a L nf s x.
  Proof.
    intros H. unfold clf_votes. apply map_ext_in. intros l [_ Hl]%in_seq. unfold label_vote, clf_opl in *. f_equal.
    apply VoteFacts.signed_votes_ext. intros j Hj. assert (l * Z.to_nat (ca_clauses a / 2) + j < L * Z.to_nat (ca_clauses a / 2))%nat as Hj' by nia.
    split; [by apply untouched_pruned, H|apply (H _ Hj')].
  Qed.
  Lemma untouched_train_votes (a : clf_args) L nf (s s' : ta) x l : (forall j, (j < L * Z.to_nat (ca_clauses a / 2))%nat -> clause_untouched vw nf j s s') ->
    (l < L)%nat -> train_votes vw a nf s' x l = train_votes vw a nf s x l.
  Proof.
    intros H Hl. unfold train_votes, label_vote. f_equal.
    apply VoteFacts.signed_votes_ext. intros j Hj. assert (l * Z.to_nat (ca_clauses a / 2) + j < L * Z.to_nat (ca_clauses a / 2))%nat as Hj' by nia.
    split; [by apply untouched_fires, H|apply (H _ Hj')].
  Qed.
End Untouched.

(** ** Learned samples *)
Section Learned.
  Context {R : rnd} (g_ok : eG R -> Prop) (f_ok : eF R -> Prop) (HR : rnd_ok R g_ok f_ok).
  Context (S : sch) (HS : sch_ok S) (A : algo R) (vw : aview A).
  Notation ta := (tastate (a_pol A)).
  Notation est := (est (a_pol A) (eS S) (eG R) (eF R)).

  Definition clf_learned (a : clf_args) (L nf : nat) (s : ta) (x : a_smp A) (t : Z) : Prop :=
    forall l, (l < L)%nat -> train_votes vw a nf s x l = (if Z.of_nat l =? t then ca_threshold a else - ca_threshold a).

  Lemma learned_update a L nf f x t o (s s' : ta) : 1 <= ca_threshold a < 1073741824 -> f_ok f -> (t < L)%nat -> (o < L)%nat -> o <> t ->
    clf_learned a L nf s x (Z.of_nat t) -> clf_update vw a L nf (f_draw R f) x t o s s' ->
    forall j, (j < L * Z.to_nat (ca_clauses a / 2))%nat -> clause_untouched vw nf j s s'.
  Proof using HR.
    intros HT Hf Ht Ho Hne Hl Hu j Hj. specialize (Hu j Hj).
    assert (clf_feedback vw a nf (f_draw R f) s x t o j = 0) as E; [|by rewrite E in Hu].
    assert (forall i z, f_gt (f_draw R f i) (S754_zero z) = true) as Hns.
    { intros i z. apply zero_lt_gt. by apply (f_draw_pos g_ok f_ok HR). }
    pose proof (Hl t Ht) as E1. rewrite Z.eqb_refl in E1.
    pose proof (Hl o Ho) as E2. destruct (Z.eqb_spec (Z.of_nat o) (Z.of_nat t)); [lia|].
    unfold clf_feedback, feedback_to. rewrite E1, E2.
    destruct (target_thr_spec (ca_threshold a) (ca_threshold a)) as (_ & _ & Q1); [lia|lia|]. destruct (Q1 eq_refl) as [z1 ->].
    destruct (opposite_thr_spec (ca_threshold a) (- ca_threshold a)) as (_ & _ & Q2); [lia|lia|]. destruct (Q2 eq_refl) as [z2 ->].
    rewrite !Hns. by repeat case_decide.
  Qed.
  Lemma learned_updates a L nf vis st st' : 1 <= ca_threshold a < 1073741824 ->
    clf_updates vw a L nf vis st st' -> f_ok st.1 -> Forall (fun v => clf_learned a L nf st.2 v.1 v.2) vis ->
    forall j, (j < L * Z.to_nat (ca_clauses a / 2))%nat -> clause_untouched vw nf j st.2 st'.2.
  Proof using HR.
    intros HT. induction 1 as [st|x t o vis f s s' st Ht Ho Hne Hu _ IH]; intros Hf HF j Hj; [apply untouched_refl|].
    cbn [fst snd] in *. apply Forall_cons in HF as [H1 HF].
    pose proof (learned_update a L nf f x t o s s' HT Hf Ht Ho Hne H1 Hu) as Hs.
    eapply untouched_trans; [by apply Hs|]. apply IH; [by apply (f_iter_ok g_ok f_ok HR)| |done].
    eapply Forall_impl; [exact HF|]. intros v Hv l Hl. rewrite (untouched_train_votes vw a L nf s s'); auto.
  Qed.
  Lemma clf_saturated a p os rs (e e' : est) L nf X y ml n :
    trains_well R (ca_states a) A vw -> clf_created a p -> clf_history S A vw p os rs e -> clf_dims_of os rs = Some (L, nf) ->
    Forall (v_phys vw) X -> ca_threshold a < 1073741824 -> clf_partial_fit S A e X y ml n = Ret (S_OK, e') ->
    (forall x t, (x, t) ∈ zip X y -> clf_learned a L nf (e_ta e) x t) ->
    forall j, (j < L * Z.to_nat (ca_clauses a / 2))%nat -> clause_untouched vw nf j (e_ta e) (e_ta e').
  Proof using HR HS.
    intros Hw Hc Hh Hd HX HT E Hl.
    destruct (clf_more_trace g_ok f_ok HR S HS A vw a p os rs e e' L nf X y ml n Hw Hc Hh Hd HX E) as (viss & _ & HF & Hu).
    pose proof (reach_f g_ok f_ok HR S HS A vw _ _ _ _ _ _ _ (trains_well_algo _ _ _ _ Hw) Hc Hh Hd) as Hf.
    assert (1 <= ca_threshold a) by (destruct (cc_valid _ _ Hc) as [_ Hacc _]; apply Hacc).
    refine (learned_updates a L nf _ _ _ (conj H HT) Hu Hf _). apply Forall_concat.
    eapply Forall_impl; [exact HF|]. intros vis Hp. apply list.Forall_forall. intros [x t] Hin. cbn [fst snd].
    apply Hl. by rewrite <- Hp.
  Qed.
  Lemma reg_learned_updates a nf vis (s s' : ta) : reg_updates vw a nf vis s s' ->
    Forall (fun v => train_response vw a nf s v.1 = v.2) vis -> s' = s.
  Proof using.
    induction 1 as [s|x y vis s s1 s2 Hy [Hu _] _ IH]; intros HF; [done|].
    apply Forall_cons in HF as [H1 HF]. cbn [fst snd] in H1. specialize (Hu H1) as ->. by apply IH.
  Qed.
  Lemma reg_saturated a p os rs (e e' : est) nf X y n :
    trains_well R (ra_states a) A vw -> reg_created a p -> reg_history S A vw p os rs e -> reg_dims_of os rs = Some nf ->
    Forall (v_phys vw) X -> reg_partial_fit S A e X y n = Ret (S_OK, e') ->
    (forall x t, (x, t) ∈ zip X y -> train_response vw a nf (e_ta e) x = t) -> e_ta e' = e_ta e.
  Proof using HR HS.
    intros Hw Hc Hh Hd HX E Hl.
    destruct (reg_more_trace g_ok f_ok HR S HS A vw a p os rs e e' nf X y n Hw Hc Hh Hd HX E) as (viss & _ & HF & Hu).
    eapply reg_learned_updates; [exact Hu|]. apply Forall_concat.
    eapply Forall_impl; [exact HF|]. intros vis Hp. apply list.Forall_forall. intros [x t] Hin. cbn [fst snd].
    apply Hl. by rewrite <- Hp.
  Qed.

  (** ** What that means for the answers *)
  Lemma clf_dims_kept os rs L nf X y ml n (e e' : est) p : clf_history S A vw p os rs e -> clf_dims_of os rs = Some (L, nf) -> Forall (v_phys vw) X ->
    clf_partial_fit S A e X y ml n = Ret (S_OK, e') ->
    clf_history S A vw p (os ++ [CPartialFit A X y ml n]) (rs ++ [CRStatus S_OK]) e' /\
    clf_dims_of (os ++ [CPartialFit A X y ml n]) (rs ++ [CRStatus S_OK]) = Some (L, nf).
  Proof using.
    intros Hh Hd HX E. split.
    - apply (clf_history_snoc S A vw p os rs e); [done|exact HX|]. cbn [clf_step]. by rewrite E.
    - rewrite clf_dims_snoc by (by destruct Hh as [_ Hr]; eapply clf_run_len). by rewrite Hd.
  Qed.
  Lemma reg_dims_kept os rs nf X y n (e e' : est) p : reg_history S A vw p os rs e -> reg_dims_of os rs = Some nf -> Forall (v_phys vw) X ->
    reg_partial_fit S A e X y n = Ret (S_OK, e') ->
    reg_history S A vw p (os ++ [RPartialFit A X y n]) (rs ++ [RRStatus S_OK]) e' /\
    reg_dims_of (os ++ [RPartialFit A X y n]) (rs ++ [RRStatus S_OK]) = Some nf.
  Proof using.
    intros Hh Hd HX E. split.
    - apply (reg_history_snoc S A vw p os rs e); [done|exact HX|]. cbn [reg_step]. by rewrite E.
    - rewrite reg_dims_snoc by (by destruct Hh as [_ Hr]; eapply reg_run_len). by rewrite Hd.
  Qed.
  Lemma clf_same_answers a p os rs (e e' : est) L nf X y ml n :
    tsetlini_algo R A vw -> clf_created a p -> clf_history S A vw p os rs e -> clf_dims_of os rs = Some (L, nf) ->
    Forall (v_phys vw) X -> clf_partial_fit S A e X y ml n = Ret (S_OK, e') ->
    (forall j, (j < L * Z.to_nat (ca_clauses a / 2))%nat -> clause_untouched vw nf j (e_ta e) (e_ta e')) ->
    forall x, v_phys vw x -> v_ok vw nf x ->
      exists v l e1 e2 e3 e4, clf_decision1 S A e x = Ret (Right v, e1) /\ clf_decision1 S A e' x = Ret (Right v, e2) /\
        clf_predict1 S A e x = Ret (Right l, e3) /\ clf_predict1 S A e' x = Ret (Right l, e4).
  Proof using HR HS.
    intros HA Hc Hh Hd HX E Hj x Px Vx. destruct (clf_dims_kept os rs L nf X y ml n e e' p Hh Hd HX E) as [Hh' Hd'].
    destruct (Relevance.clf_answers g_ok f_ok HR S HS A vw HA a p os rs e Hc Hh L nf Hd x Px Vx) as [(e1 & D1) (e2 & D2)].
    destruct (Relevance.clf_answers g_ok f_ok HR S HS A vw HA a p _ _ e' Hc Hh' L nf Hd' x Px Vx) as [(e3 & D3) (e4 & D4)].
    unfold clf_label in D2, D4. rewrite (untouched_votes vw a L nf (e_ta e) (e_ta e') x Hj) in D3, D4. eexists _, _, _, _, _, _. eauto.
  Qed.
  Lemma reg_same_answers a p os rs (e e' : est) nf X y n :
    tsetlini_algo R A vw -> reg_created a p -> reg_history S A vw p os rs e -> reg_dims_of os rs = Some nf ->
    Forall (v_phys vw) X -> reg_partial_fit S A e X y n = Ret (S_OK, e') -> e_ta e' = e_ta e ->
    forall x, v_phys vw x -> v_ok vw nf x -> exists v e1 e2, reg_predict1 S A e x = Ret (Right v, e1) /\ reg_predict1 S A e' x = Ret (Right v, e2).
  Proof using HR HS.
    intros HA Hc Hh Hd HX E Et x Px Vx. destruct (reg_dims_kept os rs nf X y n e e' p Hh Hd HX E) as [Hh' Hd'].
    destruct (reg_answer g_ok f_ok HR S HS A vw HA a p os rs e Hc Hh nf Hd x Px Vx) as [e1 D1].
    destruct (reg_answer g_ok f_ok HR S HS A vw HA a p _ _ e' Hc Hh' nf Hd' x Px Vx) as [e2 D2].
    rewrite Et in D2. eauto.
  Qed.
  (** when no clause is empty the votes of training are the values of the decision function *)
  Lemma full_votes a L nf (s : ta) x l : (forall j, (j < L * Z.to_nat (ca_clauses a / 2))%nat -> exists k, (k < nf)%nat /\ mentions A vw s j k) ->
    (l < L)%nat -> clf_votes vw a L nf s x !! l = Some (train_votes vw a nf s x l).
  Proof using.
    intros H Hl. unfold clf_votes. rewrite list_lookup_fmap, lookup_seq_lt by done. cbn [fmap option_fmap option_map Nat.add]. f_equal.
    unfold train_votes, label_vote, clf_opl. f_equal. apply VoteFacts.signed_votes_ext. intros j Hj. split; [|done].
    unfold fires_pruned. replace (clause_nonempty _ _ _) with true; [apply andb_true_r|]. symmetry. apply clause_nonempty_iff. apply H. nia.
  Qed.
  Lemma full_response a nf (s : ta) x : (forall j, (j < Z.to_nat (ra_clauses a / 2))%nat -> exists k, (k < nf)%nat /\ mentions A vw s j k) ->
    reg_response vw a nf s x = train_response vw a nf s x.
  Proof using.
    intros H. unfold reg_response, train_response, reg_n. f_equal. apply InvFacts.total_votes_ext; [|done]. intros j Hj.
    unfold fires_pruned. replace (clause_nonempty _ _ _) with true; [apply andb_true_r|]. symmetry. apply clause_nonempty_iff. by apply H.
  Qed.
End Learned.

Section Api.
  Context {R : rnd} (g_ok : eG R -> Prop) (f_ok : eF R -> Prop) (HR : rnd_ok R g_ok f_ok).
  Context (S : sch) (HS : sch_ok S) (A : algo R) (vw : aview A).
  Notation est := (est (a_pol A) (eS S) (eG R) (eF R)).
  Lemma clf_learned_call a p os rs (e e' : est) L nf X y ml n :
    trains_well R (ca_states a) A vw -> clf_created a p -> clf_history S A vw p os rs e -> clf_dims_of os rs = Some (L, nf) ->
    Forall (v_phys vw) X -> ca_threshold a < 1073741824 -> clf_partial_fit S A e X y ml n = Ret (S_OK, e') ->
    (forall x t, (x, t) ∈ zip X y -> clf_learned A vw a L nf (e_ta e) x t) ->
    (forall j, (j < L * Z.to_nat (ca_clauses a / 2))%nat -> clause_untouched vw nf j (e_ta e) (e_ta e')) /\
    forall x, v_phys vw x -> v_ok vw nf x ->
      exists v l e1 e2 e3 e4, clf_decision1 S A e x = Ret (Right v, e1) /\ clf_decision1 S A e' x = Ret (Right v, e2) /\
        clf_predict1 S A e x = Ret (Right l, e3) /\ clf_predict1 S A e' x = Ret (Right l, e4).
  Proof using HR HS.
    intros Hw Hc Hh Hd HX HT E Hl.
    pose proof (clf_saturated g_ok f_ok HR S HS A vw a p os rs e e' L nf X y ml n Hw Hc Hh Hd HX HT E Hl) as Hu. split; [exact Hu|].
    exact (clf_same_answers g_ok f_ok HR S HS A vw a p os rs e e' L nf X y ml n (trains_well_algo _ _ _ _ Hw) Hc Hh Hd HX E Hu).
  Qed.
  Lemma clf_learned_answers a p os rs (e e' : est) L nf X y ml n :
    trains_well R (ca_states a) A vw -> clf_created a p -> clf_history S A vw p os rs e -> clf_dims_of os rs = Some (L, nf) ->
    Forall (v_phys vw) X -> ca_threshold a < 1073741824 -> clf_partial_fit S A e X y ml n = Ret (S_OK, e') ->
    (forall j, (j < L * Z.to_nat (ca_clauses a / 2))%nat -> exists k, (k < nf)%nat /\ mentions A vw (e_ta e) j k) ->
    (forall x t, (x, t) ∈ zip X y -> exists v e1, clf_decision1 S A e x = Ret (Right v, e1) /\
       forall l, (l < L)%nat -> v !! l = Some (if Z.of_nat l =? t then ca_threshold a else - ca_threshold a)) ->
    forall x, v_phys vw x -> v_ok vw nf x ->
      exists v l e1 e2 e3 e4, clf_decision1 S A e x = Ret (Right v, e1) /\ clf_decision1 S A e' x = Ret (Right v, e2) /\
        clf_predict1 S A e x = Ret (Right l, e3) /\ clf_predict1 S A e' x = Ret (Right l, e4).
  Proof using HR HS.
    intros Hw Hc Hh Hd HX HT E Hm Hl.
    apply (clf_learned_call a p os rs e e' L nf X y ml n Hw Hc Hh Hd HX HT E).
    intros x t Hin l Hlt. destruct (Hl x t Hin) as (v & e1 & D & Hv). specialize (Hv l Hlt).
    assert (v_phys vw x) as Px.
    { apply elem_of_lookup_zip_with in Hin as (i & x' & t' & [= -> ->] & Hi & _). by eapply Forall_lookup_1 in HX. }
    pose proof (trains_well_algo _ _ _ _ Hw) as HA.
    destruct (decision_votes g_ok f_ok HR S HS A vw HA a p os rs e Hc Hh x v e1 Px D) as (L' & nf' & Hd' & _ & Q).
    rewrite Hd in Hd'. injection Hd' as <- <-. rewrite (Q l Hlt) in Hv. injection Hv as <-.
    pose proof (full_votes A vw a L nf (e_ta e) x l Hm Hlt) as F. unfold clf_votes in F.
    rewrite list_lookup_fmap, lookup_seq_lt in F by done. cbn [fmap option_fmap option_map Nat.add] in F. injection F as <-. done.
  Qed.
  Lemma reg_learned_call a p os rs (e e' : est) nf X y n :
    trains_well R (ra_states a) A vw -> reg_created a p -> reg_history S A vw p os rs e -> reg_dims_of os rs = Some nf ->
    Forall (v_phys vw) X -> reg_partial_fit S A e X y n = Ret (S_OK, e') ->
    (forall x t, (x, t) ∈ zip X y -> train_response vw a nf (e_ta e) x = t) ->
    e_ta e' = e_ta e /\
    forall x, v_phys vw x -> v_ok vw nf x -> exists v e1 e2, reg_predict1 S A e x = Ret (Right v, e1) /\ reg_predict1 S A e' x = Ret (Right v, e2).
  Proof using HR HS.
    intros Hw Hc Hh Hd HX E Hl.
    pose proof (reg_saturated g_ok f_ok HR S HS A vw a p os rs e e' nf X y n Hw Hc Hh Hd HX E Hl) as Hu. split; [exact Hu|].
    exact (reg_same_answers g_ok f_ok HR S HS A vw a p os rs e e' nf X y n (trains_well_algo _ _ _ _ Hw) Hc Hh Hd HX E Hu).
  Qed.
  Lemma reg_learned_answers a p os rs (e e' : est) nf X y n :
    trains_well R (ra_states a) A vw -> reg_created a p -> reg_history S A vw p os rs e -> reg_dims_of os rs = Some nf ->
    Forall (v_phys vw) X -> reg_partial_fit S A e X y n = Ret (S_OK, e') ->
    (forall j, (j < Z.to_nat (ra_clauses a / 2))%nat -> exists k, (k < nf)%nat /\ mentions A vw (e_ta e) j k) ->
    (forall x t, (x, t) ∈ zip X y -> exists e1, reg_predict1 S A e x = Ret (Right t, e1)) ->
    forall x, v_phys vw x -> v_ok vw nf x -> exists v e1 e2, reg_predict1 S A e x = Ret (Right v, e1) /\ reg_predict1 S A e' x = Ret (Right v, e2).
  Proof using HR HS.
    intros Hw Hc Hh Hd HX E Hm Hl.
    apply (reg_learned_call a p os rs e e' nf X y n Hw Hc Hh Hd HX E).
    intros x t Hin. destruct (Hl x t Hin) as (e1 & D).
    assert (v_phys vw x) as Px.
    { apply elem_of_lookup_zip_with in Hin as (i & x' & t' & [= -> ->] & Hi & _). by eapply Forall_lookup_1 in HX. }
    pose proof (trains_well_algo _ _ _ _ Hw) as HA.
    destruct (regressor_response g_ok f_ok HR S HS A vw HA a p os rs e Hc Hh x t e1 Px D) as (nf' & Hd' & -> & _).
    rewrite Hd in Hd'. injection Hd' as <-. symmetry. exact (full_response A vw a nf (e_ta e) x Hm).
  Qed.
End Api.

(** ** Drift *)
Section Drift.
  Context {R : rnd} (A : algo R) (vw : aview A).
  Notation ta := (tastate (a_pol A)).
  (** clause [j] after at most [u] updates: automata at most [u] steps up and [u * nf] steps down, weight at most [u] off *)
  Definition drifted (nf j u : nat) (s s' : ta) : Prop :=
    (forall k, (k < nf)%nat -> pos_state s j k - Z.of_nat (u * nf) <= pos_state s' j k <= pos_state s j k + Z.of_nat u /\
                               neg_state s j k - Z.of_nat (u * nf) <= neg_state s' j k <= neg_state s j k + Z.of_nat u) /\
    Z.abs (weight_of (ta_weights s') j - weight_of (ta_weights s) j) <= Z.of_nat u.
  Lemma drifted_refl nf j s : drifted nf j 0 s s.
  Proof using. split; [intros; lia|lia]. Qed.
  Lemma drifted_trans nf j u v s1 s2 s3 : drifted nf j u s1 s2 -> drifted nf j v s2 s3 -> drifted nf j (u + v) s1 s3.
  Proof using. intros [H1 W1] [H2 W2]. split; [|lia]. intros k Hk. specialize (H1 k Hk). specialize (H2 k Hk). rewrite Nat.mul_add_distr_r. lia. Qed.
  Lemma drifted_mono nf j u v s1 s2 : (u <= v)%nat -> drifted nf j u s1 s2 -> drifted nf j v s1 s2.
  Proof using. intros Huv [H1 W1]. split; [|lia]. intros k Hk. specialize (H1 k Hk). pose proof (Nat.mul_le_mono_r u v nf Huv). lia. Qed.
  Lemma untouched_drifted nf j s s' : clause_untouched vw nf j s s' -> drifted nf j 0 s s'.
  Proof using. intros [H W]. split; [|lia]. intros k Hk. destruct (H k Hk) as (E1 & E2 & _). lia. Qed.
  Lemma down_range N z d : z - Z.of_nat d <= Nat.iter d (down N) z <= z.
  Proof using. induction d as [|d IH]; [cbn; lia|]. cbn [Nat.iter nat_rect]. unfold down at 1 3. destruct (_ <? _); unfold Nat.iter in IH; lia. Qed.
  Lemma fired_range b N lit toss z : z - 1 <= type1_fired b N lit toss z <= z + 1.
  Proof using. unfold type1_fired, up, down. repeat case_match; lia. Qed.
  Lemma type2_range lit z : z - 1 <= type2 lit z <= z + 1.
  Proof using. unfold type2. repeat case_match; lia. Qed.
  Lemma sum_below_ge nf d k : (k < nf)%nat -> (d k <= sum_below nf d)%nat.
  Proof using.
    intros Hk. unfold sum_below. assert (In k (seq 0 nf)) as Hin by (apply in_seq; lia). induction (seq 0 nf) as [|i l IH]; [done|].
    change (list_sum (map d (i :: l))) with (d i + list_sum (map d l))%nat. destruct Hin as [->|Hin]; [lia|]. specialize (IH Hin). lia.
  Qed.
  Lemma rule_drifted (H : Z -> Prop) N wt b mw nf x j kind fired s s' : (forall h, H h -> h <= Z.of_nat nf) -> 0 <= weight_of (ta_weights s) j ->
    clause_rule vw H N wt b mw nf x j kind fired s s' -> drifted nf j 1 s s'.
  Proof using.
    intros HH Hw Hr. unfold clause_rule in Hr. destruct (kind =? 1); [destruct fired|].
    - destruct Hr as [(tp & tn & _ & _ & Hs) Ew]. split.
      + intros k Hk. destruct (Hs k Hk) as [-> ->].
        pose proof (fired_range b N (v_x vw x k) (tp k) (pos_state s j k)). pose proof (fired_range b N (negb (v_x vw x k)) (tn k) (neg_state s j k)). lia.
      + rewrite Ew. unfold weight_up. destruct (_ && _); lia.
    - destruct Hr as [(dp & dn & Mp & Mn & Hs) Ew]. split.
      + intros k Hk. destruct (Hs k Hk) as [-> ->]. pose proof (down_range N (pos_state s j k) (dp k)). pose proof (down_range N (neg_state s j k) (dn k)).
        pose proof (sum_below_ge nf dp k Hk). pose proof (sum_below_ge nf dn k Hk).
        destruct Mp as (h1 & Q1 & Q2), Mn as (h2 & Q3 & Q4). apply HH in Q1, Q3. lia.
      + rewrite Ew. lia.
    - destruct ((kind =? -1) && fired); [|by eapply drifted_mono; [|by apply untouched_drifted]; lia].
      destruct Hr as [Hs Ew]. split.
      + intros k Hk. destruct (Hs k Hk) as [-> ->].
        pose proof (type2_range (v_x vw x k) (pos_state s j k)). pose proof (type2_range (negb (v_x vw x k)) (neg_state s j k)). lia.
      + rewrite Ew. unfold weight_down. lia.
  Qed.
  Lemma rule_weight (H : Z -> Prop) N wt b mw nf x j kind fired s s' : 0 <= weight_of (ta_weights s) j ->
    clause_rule vw H N wt b mw nf x j kind fired s s' -> 0 <= weight_of (ta_weights s') j.
  Proof using.
    intros Hw Hr. unfold clause_rule in Hr. destruct (kind =? 1); [destruct fired|].
    - destruct Hr as [_ ->]. unfold weight_up. destruct (_ && _); lia.
    - destruct Hr as [_ ->]. done.
    - destruct (_ && _); [|by destruct Hr as [_ ->]]. destruct Hr as [_ ->]. unfold weight_down. lia.
  Qed.
  Lemma clf_drift a L nf vis st st' : (forall h, toss_count (ca_s a) nf h -> h <= Z.of_nat nf) -> clf_updates vw a L nf vis st st' ->
    (forall j, (j < L * Z.to_nat (ca_clauses a / 2))%nat -> 0 <= weight_of (ta_weights st.2) j) ->
    forall j, (j < L * Z.to_nat (ca_clauses a / 2))%nat -> drifted nf j (length vis) st.2 st'.2.
  Proof using.
    intros HH. induction 1 as [st|x t o vis f s s' st Ht Ho Hne Hu _ IH]; intros Hw j Hj; [apply drifted_refl|]. cbn [fst snd length] in *.
    eapply (drifted_trans nf j 1); [eapply rule_drifted; [exact HH| |by apply Hu]; auto|]. apply IH; [|done].
    intros i Hi. eapply rule_weight; [|by apply Hu]; auto.
  Qed.
  Lemma picks_drift a nf x kind fire js s s' : (forall h, toss_count (ra_s a) nf h -> h <= Z.of_nat nf) -> reg_picks vw a nf x kind fire js s s' ->
    (forall j, (j < Z.to_nat (ra_clauses a / 2))%nat -> 0 <= weight_of (ta_weights s) j) ->
    forall j, (j < Z.to_nat (ra_clauses a / 2))%nat -> drifted nf j (length js) s s' /\ 0 <= weight_of (ta_weights s') j.
  Proof using.
    intros HH. induction 1 as [s|i js s s1 s2 Hi Hr Ho _ IH]; intros Hw j Hj; [split; [apply drifted_refl|auto]|].
    assert (forall j, (j < Z.to_nat (ra_clauses a / 2))%nat -> drifted nf j 1 s s1 /\ 0 <= weight_of (ta_weights s1) j) as W.
    { intros j' Hj'. destruct (Nat.eq_dec j' i) as [->|Hne].
      - split; [eapply rule_drifted; [exact HH| |exact Hr]|eapply rule_weight; [|exact Hr]]; auto.
      - split; [eapply drifted_mono; [|by apply untouched_drifted, Ho]; lia|]. destruct (Ho j' Hj' Hne) as [_ ->]. auto. }
    destruct (IH ltac:(intros; by apply W) j Hj) as [D1 D2]. split; [|done]. cbn [length].
    eapply (drifted_trans nf j 1); [by apply W|exact D1].
  Qed.
  Lemma reg_drift a nf vis s s' : (forall h, toss_count (ra_s a) nf h -> h <= Z.of_nat nf) -> reg_updates vw a nf vis s s' ->
    (forall j, (j < Z.to_nat (ra_clauses a / 2))%nat -> 0 <= weight_of (ta_weights s) j) ->
    forall j, (j < Z.to_nat (ra_clauses a / 2))%nat -> drifted nf j (length vis * Z.to_nat (ra_clauses a / 2)) s s'.
  Proof using.
    intros HH. induction 1 as [s|x y vis s s1 s2 Hy [H0 H1] _ IH]; intros Hw j Hj; [apply drifted_refl|]. cbn [length Nat.mul].
    assert (forall j, (j < Z.to_nat (ra_clauses a / 2))%nat -> drifted nf j (Z.to_nat (ra_clauses a / 2)) s s1 /\ 0 <= weight_of (ta_weights s1) j) as W.
    { intros j' Hj'. destruct (Z.eq_dec (train_response vw a nf s x) y) as [E|E].
      - rewrite (H0 E). split; [|auto]. eapply drifted_mono; [|apply drifted_refl]. lia.
      - destruct (H1 E) as (js & _ & Hl & Hp). destruct (picks_drift _ _ _ _ _ _ _ _ HH Hp Hw j' Hj') as [D1 D2]. split; [|done].
        eapply drifted_mono; [|exact D1]. lia. }
    eapply drifted_trans; [by apply W|]. apply IH; [|done]. intros i Hi. by apply W.
  Qed.
End Drift.
Section DriftCalls.
  Context {R : rnd} (g_ok : eG R -> Prop) (f_ok : eF R -> Prop) (HR : rnd_ok R g_ok f_ok).
  Context (S : sch) (HS : sch_ok S) (A : algo R) (vw : aview A).
  Notation est := (est (a_pol A) (eS S) (eG R) (eF R)).
  Lemma visits {T} (X : list T) (y : list Z) n viss : length viss = n -> Forall (fun vis => Permutation vis (zip X y)) viss ->
    (length (concat viss) <= n * length X)%nat.
  Proof using.
    intros <-. induction 1 as [|vis viss Hp _ IH]; [cbn; lia|]. cbn. rewrite app_length, Hp.
    rewrite zip_with_length. pose proof (Nat.le_min_l (length X) (length y)). lia.
  Qed.
  Lemma toss_le s nf h : SpecFloat.valid_binary 24 128 s = true -> s_valid s = true -> Z.of_nat nf <= 16777216 -> toss_count s nf h -> h <= Z.of_nat nf.
  Proof using. intros H1 H2 H3 H4. destruct (toss_count_hits s nf h H1 H2 H3 H4) as (m & _ & _ & H5). lia. Qed.
  Lemma weight_pos (wt : bool) mw ws j : (if wt then Forall (fun w => 0 <= w /\ 1 + w <= mw) ws /\ True else ws = []) -> 0 <= weight_of ws j.
  Proof using.
    unfold weight_of. destruct wt; [intros [H _]|intros ->; done]. destruct (ws !! j) as [w|] eqn:E; [|done]. cbn.
    eapply Forall_lookup_1 in H; [|exact E]. lia.
  Qed.
  Lemma clf_drift_call a p os rs (e e' : est) L nf X y ml n :
    trains_well R (ca_states a) A vw -> clf_created a p -> clf_history S A vw p os rs e -> clf_dims_of os rs = Some (L, nf) ->
    Z.of_nat nf <= 16777216 ->
    Forall (v_phys vw) X -> clf_partial_fit S A e X y ml n = Ret (S_OK, e') ->
    forall j, (j < L * Z.to_nat (ca_clauses a / 2))%nat -> drifted A nf j (n * length X) (e_ta e) (e_ta e').
  Proof using HR HS.
    intros Hw Hc Hh Hd Hnf HX E j Hj.
    destruct (clf_more_trace g_ok f_ok HR S HS A vw a p os rs e e' L nf X y ml n Hw Hc Hh Hd HX E) as (viss & Hl & HF & Hu).
    eapply drifted_mono; [by apply (visits X y n viss)|].
    refine (clf_drift A vw a L nf _ _ _ _ Hu _ j Hj).
    - intros h. apply toss_le; [| |done]; destruct (cc_valid _ _ Hc) as [Hty Hacc _]; [apply Hty|apply Hacc].
    - intros i _. cbn [snd]. pose proof (clf_weights g_ok f_ok HR S HS A vw (trains_well_algo _ _ _ _ Hw) a p os rs e Hc Hh) as W.
      apply (weight_pos (ca_weighted a) (ca_max_weight a)). destruct (ca_weighted a); [|done]. split; [apply W|done].
  Qed.
  Lemma reg_drift_call a p os rs (e e' : est) nf X y n :
    trains_well R (ra_states a) A vw -> reg_created a p -> reg_history S A vw p os rs e -> reg_dims_of os rs = Some nf ->
    Z.of_nat nf <= 16777216 ->
    Forall (v_phys vw) X -> reg_partial_fit S A e X y n = Ret (S_OK, e') ->
    forall j, (j < Z.to_nat (ra_clauses a / 2))%nat -> drifted A nf j (n * length X * Z.to_nat (ra_clauses a / 2)) (e_ta e) (e_ta e').
  Proof using HR HS.
    intros Hw Hc Hh Hd Hnf HX E j Hj.
    destruct (reg_more_trace g_ok f_ok HR S HS A vw a p os rs e e' nf X y n Hw Hc Hh Hd HX E) as (viss & Hl & HF & Hu).
    eapply drifted_mono; [apply Nat.mul_le_mono_r; by apply (visits X y n viss)|].
    refine (reg_drift A vw a nf _ _ _ _ Hu _ j Hj).
    - intros h. apply toss_le; [| |done]; destruct (rc_valid _ _ Hc) as [Hty Hacc _]; [apply Hty|apply Hacc].
    - intros i _. pose proof (reg_weights g_ok f_ok HR S HS A vw (trains_well_algo _ _ _ _ Hw) a p os rs e Hc Hh) as W.
      apply (weight_pos (ra_weighted a) (ra_max_weight a)). destruct (ra_weighted a); [|done]. split; [apply W|done].
  Qed.
End DriftCalls.
