(** * Consequences for arbitrary histories: what predictions return, what training accepts. *)
From Verif Require Export Reach.
From stdpp Require Import list.
Local Open Scope Z_scope.

(** the calls that only read *)
Definition clf_reads {R} {A : algo R} (o : clf_op A) : Prop :=
  match o with CFit _ _ _ _ _ | CPartialFit _ _ _ _ _ | CEvaluate _ _ _ => False | _ => True end.
Definition reg_reads {R} {A : algo R} (o : reg_op A) : Prop :=
  match o with RFit _ _ _ _ | RPartialFit _ _ _ _ => False | _ => True end.

Section Hist.
  Context {R : rnd} (g_ok : eG R -> Prop) (f_ok : eF R -> Prop) (HR : rnd_ok R g_ok f_ok).
  Context (S : sch) (HS : sch_ok S).
  Context (A : algo R) (vw : aview A) (HA : tsetlini_algo R A vw).
  Notation est := (est (a_pol A) (eS S) (eG R) (eF R)).
  Notation clf_history := (clf_history S A vw).
  Notation reg_history := (reg_history S A vw).

  Lemma clf_hist_laws a : clf_valid a -> exists I E1n E1p E2, forall U V,
    laws A g_ok vw U V (width_of (ca_counting a) (ca_states a)) (ca_states a) I E1n E1p E2.
  Proof.
    intros [[] [] _]. destruct (wide_enough (ca_counting a) (ca_states a)) as [H1 H2]; [done| |].
    { unfold is_int in *. lia. } by apply (algo_laws g_ok f_ok HR).
  Qed.
  Lemma reg_hist_laws a : reg_valid a -> exists I E1n E1p E2, forall U V,
    laws A g_ok vw U V (width_of (ra_counting a) (ra_states a)) (ra_states a) I E1n E1p E2.
  Proof.
    intros [[] [] _]. destruct (wide_enough (ra_counting a) (ra_states a)) as [H1 H2]; [done| |].
    { unfold is_int in *. lia. } by apply (algo_laws g_ok f_ok HR).
  Qed.

  (** ** Answers *)
  Lemma clf_answers a p os rs e o r e' : clf_created a p -> clf_history p os rs e -> clf_op_phys A vw o ->
    clf_step S A e o = Ret (r, e') -> clf_answer A vw a (clf_dims_of os rs) (e_ta e) o r /\ clf_frame S A o r e e'.
  Proof.
    intros Hc Hh Ho E. destruct (clf_hist_laws a (cc_valid _ _ Hc)) as (I & E1n & E1p & E2 & Lw).
    pose proof (clf_call g_ok f_ok HR S HS A vw _ _ I E1n E1p E2 Lw True True a p os rs e o Hc eq_refl eq_refl Hh Ho
      (fun _ _ _ => ct_good_true _ _ _) (clf_op_side_true _ _ _ _ _ _ _)) as H.
    rewrite E in H. destruct H as (H1 & H2 & _). done.
  Qed.
  Lemma reg_answers a p os rs e o r e' : reg_created a p -> reg_history p os rs e -> reg_op_phys A vw o ->
    reg_step S A e o = Ret (r, e') -> reg_answer A vw a (reg_dims_of os rs) (e_ta e) o r /\ reg_frame S A o r e e'.
  Proof.
    intros Hc Hh Ho E. destruct (reg_hist_laws a (rc_valid _ _ Hc)) as (I & E1n & E1p & E2 & Lw).
    pose proof (reg_call g_ok f_ok HR S HS A vw _ _ I E1n E1p E2 Lw True True a p os rs e o Hc eq_refl eq_refl Hh Ho
      (fun _ _ => ct_good_true _ _ _) (reg_op_side_true _ _ _ _ _ _ _)) as H.
    rewrite E in H. destruct H as (H1 & H2 & _). done.
  Qed.
  (** predictions always return *)
  Lemma clf_reads_return a p os rs e o : clf_created a p -> clf_history p os rs e -> clf_op_phys A vw o -> clf_reads o ->
    exists r e', clf_step S A e o = Ret (r, e').
  Proof.
    intros Hc Hh Ho Hr. destruct (clf_hist_laws a (cc_valid _ _ Hc)) as (I & E1n & E1p & E2 & Lw).
    pose proof (clf_history_at g_ok f_ok HR S HS A vw _ _ I E1n E1p E2 Lw a p os rs e Hc eq_refl eq_refl Hh) as Hat.
    specialize (Lw True True). destruct Hc as [Ha _ _].
    destruct o as [X y ml epochs|X y ml epochs|x|X|x|X|X y]; try done; unfold clf_step;
      (destruct (clf_dims_of os rs) as [[L nf]|]; [destruct Hat as [Hf _]|cbn in Hat; subst e]).
    - destruct (clf_predict1_spec g_ok f_ok S HS A vw True True _ _ I E1n E1p E2 Lw a L nf Ha e Hf x Ho) as [(_ & c & -> & _)|(_ & ->)]; cbn; eauto.
    - unfold clf_predict1. rewrite check_single_unfitted by done. cbn. eauto.
    - destruct (clf_predict_spec g_ok f_ok S HS A vw True True _ _ I E1n E1p E2 Lw a L nf Ha e Hf X Ho) as [(_ & c & -> & _)|(_ & ->)]; cbn; eauto.
    - unfold clf_predict. rewrite check_batch_unfitted by done. cbn. eauto.
    - destruct (clf_decision1_spec g_ok f_ok S HS A vw True True _ _ I E1n E1p E2 Lw a L nf Ha e Hf x Ho) as [(_ & c & -> & _)|(_ & ->)]; cbn; eauto.
    - unfold clf_decision1. rewrite check_single_unfitted by done. cbn. eauto.
    - destruct (clf_decision_spec g_ok f_ok S HS A vw True True _ _ I E1n E1p E2 Lw a L nf Ha e Hf X Ho) as [(_ & c & -> & _)|(_ & ->)]; cbn; eauto.
    - unfold clf_decision. rewrite check_batch_unfitted by done. cbn. eauto.
  Qed.
  Lemma reg_reads_return a p os rs e o : reg_created a p -> reg_history p os rs e -> reg_op_phys A vw o -> reg_reads o ->
    exists r e', reg_step S A e o = Ret (r, e').
  Proof.
    intros Hc Hh Ho Hr. destruct (reg_hist_laws a (rc_valid _ _ Hc)) as (I & E1n & E1p & E2 & Lw).
    pose proof (reg_history_at g_ok f_ok HR S HS A vw _ _ I E1n E1p E2 Lw a p os rs e Hc eq_refl eq_refl Hh) as Hat.
    specialize (Lw True True). destruct Hc as [Ha _].
    destruct o as [X y epochs|X y epochs|x|X]; try done; unfold reg_step;
      (destruct (reg_dims_of os rs) as [nf|]; [destruct Hat as [Hf _]|cbn in Hat; subst e]).
    - destruct (reg_predict1_spec g_ok S HS A vw True True _ _ I E1n E1p E2 Lw a nf Ha e Hf x Ho) as [(_ & c & -> & _)|(_ & ->)]; cbn; eauto.
    - unfold reg_predict1. rewrite check_single_unfitted by done. cbn. eauto.
    - destruct (reg_predict_spec g_ok S HS A vw True True _ _ I E1n E1p E2 Lw a nf Ha e Hf X Ho) as [(_ & c & -> & _)|(_ & ->)]; cbn; eauto.
    - unfold reg_predict. rewrite check_batch_unfitted by done. cbn. eauto.
  Qed.

  (** ** "Fitted" as a caller sees it: some training call has returned S_OK *)
  Lemma clf_dims_none p os rs e : clf_history p os rs e -> clf_dims_of os rs = None <-> CRStatus S_OK ∉ rs.
  Proof.
    revert rs e. induction os as [|o os IH] using rev_ind; intros rs e [Hp Hr].
    - injection Hr as <- <-. split; [|done]. intros _. apply not_elem_of_nil.
    - apply Forall_app in Hp as [Hp Ho].
      rewrite clf_run_snoc in Hr. apply obind_ret_inv in Hr as ([rs1 e1] & E1 & Hr).
      apply obind_ret_inv in Hr as ([r e2] & Estep & [= <- <-]).
      rewrite clf_dims_snoc by (by eapply clf_run_len). specialize (IH rs1 e1 (conj Hp E1)).
      rewrite not_elem_of_app, elem_of_list_singleton.
      destruct o; unfold clf_step in Estep; apply obind_ret_inv in Estep as ([r0 e0] & _ & [= <- <-]); cbn [clf_dims_after];
        try (rewrite IH; split; [intros H; split; [done|congruence]|by intros [? _]]).
      + destruct r0; try (rewrite IH; split; [intros H; split; [done|congruence]|by intros [? _]]).
        split; [done|]. by intros [_ []].
      + destruct r0; try (rewrite IH; split; [intros H; split; [done|congruence]|by intros [? _]]).
        split; [by destruct (clf_dims_of os rs1)|]. by intros [_ []].
  Qed.
  Lemma reg_dims_none p os rs e : reg_history p os rs e -> reg_dims_of os rs = None <-> RRStatus S_OK ∉ rs.
  Proof.
    revert rs e. induction os as [|o os IH] using rev_ind; intros rs e [Hp Hr].
    - injection Hr as <- <-. split; [|done]. intros _. apply not_elem_of_nil.
    - apply Forall_app in Hp as [Hp Ho].
      rewrite reg_run_snoc in Hr. apply obind_ret_inv in Hr as ([rs1 e1] & E1 & Hr).
      apply obind_ret_inv in Hr as ([r e2] & Estep & [= <- <-]).
      rewrite reg_dims_snoc by (by eapply reg_run_len). specialize (IH rs1 e1 (conj Hp E1)).
      rewrite not_elem_of_app, elem_of_list_singleton.
      destruct o; unfold reg_step in Estep; apply obind_ret_inv in Estep as ([r0 e0] & _ & [= <- <-]); cbn [reg_dims_after];
        try (rewrite IH; split; [intros H; split; [done|congruence]|by intros [? _]]).
      + destruct r0; try (rewrite IH; split; [intros H; split; [done|congruence]|by intros [? _]]).
        split; [done|]. by intros [_ []].
      + destruct r0; try (rewrite IH; split; [intros H; split; [done|congruence]|by intros [? _]]).
        split; [by destruct (reg_dims_of os rs1)|]. by intros [_ []].
  Qed.

  (** ** The individual prediction calls *)
  Section Clf.
    Context (a : clf_args) (p : params) (os : list (clf_op A)) (rs : list clf_res) (e : est).
    Context (Hc : clf_created a p) (Hh : clf_history p os rs e).
    Lemma clf_predict1_answer x : v_phys vw x -> exists r e', clf_predict1 S A e x = Ret (r, e') /\
      clf_answer A vw a (clf_dims_of os rs) (e_ta e) (CPredict1 A x) (CRLabel r).
    Proof.
      intros Hx. destruct (clf_reads_return a p os rs e (CPredict1 A x) Hc Hh Hx I) as (r & e' & E).
      destruct (clf_answers a p os rs e (CPredict1 A x) r e' Hc Hh Hx E) as [H _]. unfold clf_step in E.
      apply obind_ret_inv in E as ([r0 e0] & E & [= <- <-]). eauto.
    Qed.
    Lemma clf_predict_answer X : Forall (v_phys vw) X -> exists r e', clf_predict S A e X = Ret (r, e') /\
      clf_answer A vw a (clf_dims_of os rs) (e_ta e) (CPredict A X) (CRLabels r).
    Proof.
      intros Hx. destruct (clf_reads_return a p os rs e (CPredict A X) Hc Hh Hx I) as (r & e' & E).
      destruct (clf_answers a p os rs e (CPredict A X) r e' Hc Hh Hx E) as [H _]. unfold clf_step in E.
      apply obind_ret_inv in E as ([r0 e0] & E & [= <- <-]). eauto.
    Qed.
    Lemma clf_decision1_answer x : v_phys vw x -> exists r e', clf_decision1 S A e x = Ret (r, e') /\
      clf_answer A vw a (clf_dims_of os rs) (e_ta e) (CDecision1 A x) (CRVotes r).
    Proof.
      intros Hx. destruct (clf_reads_return a p os rs e (CDecision1 A x) Hc Hh Hx I) as (r & e' & E).
      destruct (clf_answers a p os rs e (CDecision1 A x) r e' Hc Hh Hx E) as [H _]. unfold clf_step in E.
      apply obind_ret_inv in E as ([r0 e0] & E & [= <- <-]). eauto.
    Qed.
    Lemma clf_decision_answer X : Forall (v_phys vw) X -> exists r e', clf_decision S A e X = Ret (r, e') /\
      clf_answer A vw a (clf_dims_of os rs) (e_ta e) (CDecision A X) (CRVotess r).
    Proof.
      intros Hx. destruct (clf_reads_return a p os rs e (CDecision A X) Hc Hh Hx I) as (r & e' & E).
      destruct (clf_answers a p os rs e (CDecision A X) r e' Hc Hh Hx E) as [H _]. unfold clf_step in E.
      apply obind_ret_inv in E as ([r0 e0] & E & [= <- <-]). eauto.
    Qed.

    (** C04 *)
    Lemma decision_votes x v e' : v_phys vw x -> clf_decision1 S A e x = Ret (Right v, e') ->
      exists L nf, clf_dims_of os rs = Some (L, nf) /\ length v = L /\
        forall l, (l < L)%nat -> v !! l = Some (label_vote (Z.to_nat (ca_clauses a / 2)) (ca_threshold a)
          (fires_pruned vw nf (e_ta e) x) (ta_weights (e_ta e)) l).
    Proof.
      intros Hx E. destruct (clf_decision1_answer x Hx) as (r & e2 & E' & H). rewrite E in E'. injection E' as <- <-.
      cbn [clf_answer] in H. destruct (clf_dims_of os rs) as [[L nf]|]; [|done]. destruct H as [[_ [= ->]]|[_ H]]; [|done].
      exists L, nf. split; [done|]. unfold clf_votes. rewrite map_length, seq_length. split; [done|].
      intros l Hl. rewrite list_lookup_fmap, lookup_seq_lt by done. done.
    Qed.
    Lemma label_vote_bound opl T f ws l : 1 <= T -> - T <= label_vote opl T f ws l <= T.
    Proof. unfold label_vote, clamp. lia. Qed.
    Lemma decision_bounded x v e' : v_phys vw x -> clf_decision1 S A e x = Ret (Right v, e') ->
      Forall (fun z => - ca_threshold a <= z <= ca_threshold a) v.
    Proof.
      intros Hx E. destruct (decision_votes x v e' Hx E) as (L & nf & _ & El & Hv). apply Forall_lookup. intros l z Hz.
      assert (l < L)%nat by (rewrite <- El; by eapply lookup_lt_Some). rewrite Hv in Hz by done. injection Hz as <-.
      destruct Hc as [[_ [] _] _ _]. by apply label_vote_bound.
    Qed.

    (** C05 *)
    Lemma predicted_label x y e' : v_phys vw x -> clf_predict1 S A e x = Ret (Right y, e') ->
      exists v e'' L nf, clf_decision1 S A e x = Ret (Right v, e'') /\ clf_dims_of os rs = Some (L, nf) /\ length v = L /\
        0 <= y < Z.of_nat L /\ first_max v (Z.to_nat y).
    Proof.
      intros Hx E. destruct (clf_predict1_answer x Hx) as (r & e2 & E' & H). rewrite E in E'. injection E' as <- <-.
      destruct (clf_decision1_answer x Hx) as (r & e3 & E3 & H3).
      destruct (clf_hist_laws a (cc_valid _ _ Hc)) as (I & E1n & E1p & E2 & Lw).
      pose proof (clf_history_at g_ok f_ok HR S HS A vw _ _ I E1n E1p E2 Lw a p os rs e Hc eq_refl eq_refl Hh) as Hat.
      cbn [clf_answer] in H, H3. destruct (clf_dims_of os rs) as [[L nf]|]; [|done]. destruct H as [[Hok [= ->]]|[_ H]]; [|done].
      destruct H3 as [[_ [= ->]]|[? _]]; [|done]. destruct Hat as [(_ & [_ _ _ HL _] & _) _].
      assert (length (clf_votes vw a L nf (e_ta e) x) = L) as El by (unfold clf_votes; by rewrite map_length, seq_length).
      assert (first_max (clf_votes vw a L nf (e_ta e) x) (argmax (clf_votes vw a L nf (e_ta e) x))) as Hm.
      { apply argmax_spec. intros E0. rewrite E0 in El. cbn in El. lia. }
      exists (clf_votes vw a L nf (e_ta e) x), e3, L, nf. split; [done|]. split; [done|]. split; [done|].
      unfold clf_label. rewrite Nat2Z.id. split; [|done]. apply first_max_lt in Hm. lia.
    Qed.

    (** C06 *)
    Lemma predict_batch X : Forall (v_phys vw) X -> X <> [] ->
      (exists ys e', clf_predict S A e X = Ret (Right ys, e') /\
        Forall2 (fun x y => exists e'', clf_predict1 S A e x = Ret (Right y, e'')) X ys) \/
      (exists st e', clf_predict S A e X = Ret (Left st, e') /\
        exists x e'', x ∈ X /\ clf_predict1 S A e x = Ret (Left st, e'')).
    Proof.
      intros HX Hne. destruct (clf_predict_answer X HX) as (r & e' & E & H). cbn [clf_answer] in H.
      destruct (clf_dims_of os rs) as [[L nf]|] eqn:Ed.
      - assert (forall x, x ∈ X -> exists r e'', clf_predict1 S A e x = Ret (r, e'') /\
          ((v_ok vw nf x /\ r = Right (clf_label vw a L nf (e_ta e) x)) \/ (~ v_ok vw nf x /\ r = Left S_VALUE_ERROR))) as Hs.
        { intros x Hx. rewrite Forall_forall in HX. destruct (clf_predict1_answer x (HX x Hx)) as (r' & e'' & E' & H').
          cbn [clf_answer] in H'. rewrite Ed in H'. exists r', e''. split; [done|].
          destruct H' as [[? H']|[? H']]; injection H' as ->; auto. }
        destruct H as [[[_ Hok] [= ->]]|[Hno [= ->]]].
        + left. eexists _, e'. split; [done|]. apply Forall2_fmap_r, Forall_Forall2_diag.
          rewrite Forall_forall in Hok |- *. intros x Hx. destruct (Hs x Hx) as (r' & e'' & E' & [[_ ->]|[? _]]); [eauto|].
          by destruct H; apply Hok.
        + right. exists S_VALUE_ERROR, e'. split; [done|].
          assert (Forall (v_ok vw nf) X \/ Exists (fun x => exists e'', clf_predict1 S A e x = Ret (Left S_VALUE_ERROR, e'')) X) as [Hall|Hex].
          { clear -Hs. induction X as [|x X IH]; [left; constructor|]. destruct (Hs x ltac:(left)) as (r' & e'' & E' & [[? _]|[_ ->]]).
            - destruct IH as [?|?]; [intros x' Hx'; apply Hs; by right|left; by constructor|right; by apply Exists_cons_tl].
            - right. apply Exists_cons_hd. eauto. }
          * by destruct Hno.
          * apply Exists_exists in Hex as (x & Hx & e'' & E'). eauto.
      - right. injection H as ->. exists S_NOT_FITTED_ERROR, e'. split; [done|]. destruct X as [|x X]; [done|].
        apply Forall_cons in HX as [Hx _]. destruct (clf_predict1_answer x Hx) as (r' & e'' & E' & H').
        cbn [clf_answer] in H'. rewrite Ed in H'. injection H' as ->. exists x, e''. split; [left|done].
    Qed.
    Lemma decision_batch X : Forall (v_phys vw) X -> X <> [] ->
      (exists ys e', clf_decision S A e X = Ret (Right ys, e') /\
        Forall2 (fun x y => exists e'', clf_decision1 S A e x = Ret (Right y, e'')) X ys) \/
      (exists st e', clf_decision S A e X = Ret (Left st, e') /\
        exists x e'', x ∈ X /\ clf_decision1 S A e x = Ret (Left st, e'')).
    Proof.
      intros HX Hne. destruct (clf_decision_answer X HX) as (r & e' & E & H). cbn [clf_answer] in H.
      destruct (clf_dims_of os rs) as [[L nf]|] eqn:Ed.
      - assert (forall x, x ∈ X -> exists r e'', clf_decision1 S A e x = Ret (r, e'') /\
          ((v_ok vw nf x /\ r = Right (clf_votes vw a L nf (e_ta e) x)) \/ (~ v_ok vw nf x /\ r = Left S_VALUE_ERROR))) as Hs.
        { intros x Hx. rewrite Forall_forall in HX. destruct (clf_decision1_answer x (HX x Hx)) as (r' & e'' & E' & H').
          cbn [clf_answer] in H'. rewrite Ed in H'. exists r', e''. split; [done|].
          destruct H' as [[? H']|[? H']]; injection H' as ->; auto. }
        destruct H as [[[_ Hok] [= ->]]|[Hno [= ->]]].
        + left. eexists _, e'. split; [done|]. apply Forall2_fmap_r, Forall_Forall2_diag.
          rewrite Forall_forall in Hok |- *. intros x Hx. destruct (Hs x Hx) as (r' & e'' & E' & [[_ ->]|[? _]]); [eauto|].
          by destruct H; apply Hok.
        + right. exists S_VALUE_ERROR, e'. split; [done|].
          assert (Forall (v_ok vw nf) X \/ Exists (fun x => exists e'', clf_decision1 S A e x = Ret (Left S_VALUE_ERROR, e'')) X) as [Hall|Hex].
          { clear -Hs. induction X as [|x X IH]; [left; constructor|]. destruct (Hs x ltac:(left)) as (r' & e'' & E' & [[? _]|[_ ->]]).
            - destruct IH as [?|?]; [intros x' Hx'; apply Hs; by right|left; by constructor|right; by apply Exists_cons_tl].
            - right. apply Exists_cons_hd. eauto. }
          * by destruct Hno.
          * apply Exists_exists in Hex as (x & Hx & e'' & E'). eauto.
      - right. injection H as ->. exists S_NOT_FITTED_ERROR, e'. split; [done|]. destruct X as [|x X]; [done|].
        apply Forall_cons in HX as [Hx _]. destruct (clf_decision1_answer x Hx) as (r' & e'' & E' & H').
        cbn [clf_answer] in H'. rewrite Ed in H'. injection H' as ->. exists x, e''. split; [left|done].
    Qed.
  End Clf.

  Section Reg.
    Context (a : reg_args) (p : params) (os : list (reg_op A)) (rs : list reg_res) (e : est).
    Context (Hc : reg_created a p) (Hh : reg_history p os rs e).
    Lemma reg_predict1_answer x : v_phys vw x -> exists r e', reg_predict1 S A e x = Ret (r, e') /\
        reg_answer A vw a (reg_dims_of os rs) (e_ta e) (RPredict1 A x) (RRResp r).
    Proof.
      intros Hx. destruct (reg_reads_return a p os rs e (RPredict1 A x) Hc Hh Hx I) as (r & e' & E).
      destruct (reg_answers a p os rs e (RPredict1 A x) r e' Hc Hh Hx E) as [H _]. unfold reg_step in E.
      apply obind_ret_inv in E as ([r0 e0] & E & [= <- <-]). eauto.
    Qed.
    Lemma reg_predict_answer X : Forall (v_phys vw) X -> exists r e', reg_predict S A e X = Ret (r, e') /\
        reg_answer A vw a (reg_dims_of os rs) (e_ta e) (RPredict A X) (RRResps r).
    Proof.
      intros Hx. destruct (reg_reads_return a p os rs e (RPredict A X) Hc Hh Hx I) as (r & e' & E).
      destruct (reg_answers a p os rs e (RPredict A X) r e' Hc Hh Hx E) as [H _]. unfold reg_step in E.
      apply obind_ret_inv in E as ([r0 e0] & E & [= <- <-]). eauto.
    Qed.
    (** C07 *)
    Lemma regressor_response x v e' : v_phys vw x -> reg_predict1 S A e x = Ret (Right v, e') ->
      exists nf, reg_dims_of os rs = Some nf /\
        v = clamp 0 (ra_threshold a) (total_votes (Z.to_nat (ra_clauses a / 2)) (fires_pruned vw nf (e_ta e) x) (weight_of (ta_weights (e_ta e)))) /\
        0 <= v <= ra_threshold a.
    Proof.
      intros Hx E. destruct (reg_predict1_answer x Hx) as (r & e2 & E' & H). rewrite E in E'. injection E' as <- <-.
      cbn [reg_answer] in H. destruct (reg_dims_of os rs) as [nf|]; [|done]. destruct H as [[_ [= ->]]|[_ H]]; [|done].
      exists nf. split; [done|]. split; [done|]. destruct Hc as [[_ [] _] _]. unfold reg_response, clamp. lia.
    Qed.
    Lemma regressor_batch X : Forall (v_phys vw) X -> X <> [] ->
      (exists ys e', reg_predict S A e X = Ret (Right ys, e') /\
        Forall2 (fun x y => exists e'', reg_predict1 S A e x = Ret (Right y, e'')) X ys) \/
      (exists st e', reg_predict S A e X = Ret (Left st, e') /\
        exists x e'', x ∈ X /\ reg_predict1 S A e x = Ret (Left st, e'')).
    Proof.
      intros HX Hne. destruct (reg_predict_answer X HX) as (r & e' & E & H). cbn [reg_answer] in H.
      destruct (reg_dims_of os rs) as [nf|] eqn:Ed.
      - assert (forall x, x ∈ X -> exists r e'', reg_predict1 S A e x = Ret (r, e'') /\
          ((v_ok vw nf x /\ r = Right (reg_response vw a nf (e_ta e) x)) \/ (~ v_ok vw nf x /\ r = Left S_VALUE_ERROR))) as Hs.
        { intros x Hx. rewrite Forall_forall in HX. destruct (reg_predict1_answer x (HX x Hx)) as (r' & e'' & E' & H').
          cbn [reg_answer] in H'. rewrite Ed in H'. exists r', e''. split; [done|].
          destruct H' as [[? H']|[? H']]; injection H' as ->; auto. }
        destruct H as [[[_ Hok] [= ->]]|[Hno [= ->]]].
        + left. eexists _, e'. split; [done|]. apply Forall2_fmap_r, Forall_Forall2_diag.
          rewrite Forall_forall in Hok |- *. intros x Hx. destruct (Hs x Hx) as (r' & e'' & E' & [[_ ->]|[? _]]); [eauto|].
          by destruct H; apply Hok.
        + right. exists S_VALUE_ERROR, e'. split; [done|].
          assert (Forall (v_ok vw nf) X \/ Exists (fun x => exists e'', reg_predict1 S A e x = Ret (Left S_VALUE_ERROR, e'')) X) as [Hall|Hex].
          { clear -Hs. induction X as [|x X IH]; [left; constructor|]. destruct (Hs x ltac:(left)) as (r' & e'' & E' & [[? _]|[_ ->]]).
            - destruct IH as [?|?]; [intros x' Hx'; apply Hs; by right|left; by constructor|right; by apply Exists_cons_tl].
            - right. apply Exists_cons_hd. eauto. }
          * by destruct Hno.
          * apply Exists_exists in Hex as (x & Hx & e'' & E'). eauto.
      - right. injection H as ->. exists S_NOT_FITTED_ERROR, e'. split; [done|]. destruct X as [|x X]; [done|].
        apply Forall_cons in HX as [Hx _]. destruct (reg_predict1_answer x Hx) as (r' & e'' & E' & H').
        cbn [reg_answer] in H'. rewrite Ed in H'. injection H' as ->. exists x, e''. split; [left|done].
    Qed.
  End Reg.
End Hist.
