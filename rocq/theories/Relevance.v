(** * Only included features matter to predictions (C63). *)
From Verif Require Import PropFacts HistFacts InvFacts ToyFacts Toy.
From stdpp Require Import list.
Local Open Scope Z_scope.

Section Relevance.
  Context {R : rnd} (g_ok : eG R -> Prop) (f_ok : eF R -> Prop) (HR : rnd_ok R g_ok f_ok) (S : sch) (HS : sch_ok S).
  Context (A : algo R) (vw : aview A) (HA : tsetlini_algo R A vw).

  (** clause [j] has a literal of feature [k] *)
  Definition mentions (s : tastate (a_pol A)) (j k : nat) : Prop :=
    v_inc vw (ta_matrix s) (ta_pol s) j k = true \/ v_incn vw (ta_matrix s) (ta_pol s) j k = true.

  Lemma fires_relevant nf s x x' j : (forall k, (k < nf)%nat -> mentions s j k -> v_x vw x k = v_x vw x' k) ->
    fires_pruned vw nf s x j = fires_pruned vw nf s x' j.
  Proof.
    intros H. unfold fires_pruned. f_equal. apply eq_bool_prop_intro. rewrite !Is_true_true. unfold fires. rewrite !clause_true_iff.
    split; intros Q k Hk; destruct (Q k Hk) as [Q1 Q2]; split; intros Hi.
    - rewrite <- H; [auto|done|by left].
    - rewrite <- H; [auto|done|by right].
    - rewrite H; [auto|done|by left].
    - rewrite H; [auto|done|by right].
  Qed.
  Lemma fires_empty nf s x j : (forall k, (k < nf)%nat -> ~ mentions s j k) -> fires_pruned vw nf s x j = false.
  Proof.
    intros H. unfold fires_pruned. destruct (clause_nonempty nf _ _) eqn:E; [|by rewrite andb_false_r].
    apply clause_nonempty_iff in E as (k & Hk & Hm). exfalso. by apply (H k Hk).
  Qed.
  Lemma signed_votes_none n f w : (forall j, (j < n)%nat -> f j = false) -> signed_votes n f w = 0.
  Proof. induction n as [|n IH]; [done|]. intros H. cbn. rewrite H, IH by (intros; try apply H; lia). done. Qed.
  Lemma total_votes_none n f w : (forall j, (j < n)%nat -> f j = false) -> total_votes n f w = 0.
  Proof. induction n as [|n IH]; [done|]. intros H. cbn. rewrite H, IH by (intros; try apply H; lia). done. Qed.

  Lemma in_label l L n j : (l < L)%nat -> (j < n)%nat -> (l * n + j < L * n)%nat.
  Proof. nia. Qed.

  (** ** Classifier *)
  Section Clf.
    Context (a : clf_args) (p : params) (os : list (clf_op A)) (rs : list clf_res) (e : est (a_pol A) (eS S) (eG R) (eF R)).
    Context (Hc : clf_created a p) (Hh : clf_history S A vw p os rs e) (L nf : nat) (Hd : clf_dims_of os rs = Some (L, nf)).
    Lemma clf_answers x : v_phys vw x -> v_ok vw nf x ->
      (exists e1, clf_decision1 S A e x = Ret (Right (clf_votes vw a L nf (e_ta e) x), e1)) /\
      (exists e1, clf_predict1 S A e x = Ret (Right (clf_label vw a L nf (e_ta e) x), e1)).
    Proof.
      intros Hp Hx. pose proof (cc_valid _ _ Hc) as Ha.
      destruct (clf_hist_laws g_ok f_ok HR A vw HA a Ha) as (I & E1n & E1p & E2 & Lw).
      pose proof (clf_history_at g_ok f_ok HR S HS A vw _ _ I E1n E1p E2 Lw a p os rs e Hc eq_refl eq_refl Hh) as Hat.
      rewrite Hd in Hat. destruct Hat as [Hf _]. specialize (Lw True True). split.
      - destruct (clf_decision1_spec g_ok f_ok S HS A vw True True _ _ I E1n E1p E2 Lw a L nf Ha e Hf x Hp) as [(_ & c & E & _)|(Hn & _)]; [eauto|done].
      - destruct (clf_predict1_spec g_ok f_ok S HS A vw True True _ _ I E1n E1p E2 Lw a L nf Ha e Hf x Hp) as [(_ & c & E & _)|(Hn & _)]; [eauto|done].
    Qed.
    Notation opl := (Z.to_nat (ca_clauses a / 2)).
    Lemma label_relevant x x' l :
      (forall j k, (j < opl)%nat -> (k < nf)%nat -> mentions (e_ta e) (l * opl + j) k -> v_x vw x k = v_x vw x' k) -> (l < L)%nat ->
      clf_votes vw a L nf (e_ta e) x !! l = clf_votes vw a L nf (e_ta e) x' !! l.
    Proof.
      intros H Hl. unfold clf_votes. rewrite !list_lookup_fmap, !lookup_seq_lt by done. cbn [fmap option_fmap option_map Nat.add].
      f_equal. unfold label_vote. f_equal. apply signed_votes_ext; [|done]. intros j Hj. apply fires_relevant. intros k Hk Hm. by apply (H j k).
    Qed.
    Lemma clf_label_relevant x x' l : v_phys vw x -> v_phys vw x' -> v_ok vw nf x -> v_ok vw nf x' -> (l < L)%nat ->
      (forall j k, (j < opl)%nat -> (k < nf)%nat -> mentions (e_ta e) (l * opl + j) k -> v_x vw x k = v_x vw x' k) ->
      exists v v' e1 e2, clf_decision1 S A e x = Ret (Right v, e1) /\ clf_decision1 S A e x' = Ret (Right v', e2) /\ v !! l = v' !! l.
    Proof.
      intros P1 P2 V1 V2 Hl H. destruct (clf_answers x P1 V1) as [(e1 & E1) _]. destruct (clf_answers x' P2 V2) as [(e2 & E2) _].
      eexists _, _, e1, e2. split; [exact E1|]. split; [exact E2|]. by apply label_relevant.
    Qed.
    Lemma clf_relevant x x' : v_phys vw x -> v_phys vw x' -> v_ok vw nf x -> v_ok vw nf x' ->
      (forall j k, (j < L * opl)%nat -> (k < nf)%nat -> mentions (e_ta e) j k -> v_x vw x k = v_x vw x' k) ->
      exists v y e1 e2 e3 e4, clf_decision1 S A e x = Ret (Right v, e1) /\ clf_decision1 S A e x' = Ret (Right v, e2) /\
        clf_predict1 S A e x = Ret (Right y, e3) /\ clf_predict1 S A e x' = Ret (Right y, e4).
    Proof.
      intros P1 P2 V1 V2 H. destruct (clf_answers x P1 V1) as [(e1 & E1) (e3 & E3)]. destruct (clf_answers x' P2 V2) as [(e2 & E2) (e4 & E4)].
      assert (clf_votes vw a L nf (e_ta e) x' = clf_votes vw a L nf (e_ta e) x) as Ev.
      { apply list_eq. intros l. destruct (Nat.lt_ge_cases l L) as [Hl|Hl].
        - symmetry. apply label_relevant; [|done]. intros j k Hj Hk. apply H; [by apply in_label|done].
        - rewrite !lookup_ge_None_2; [done| |]; unfold clf_votes; rewrite map_length, seq_length; lia. }
      unfold clf_label in E3, E4. rewrite Ev in E2, E4. eexists _, _, e1, e2, e3, e4. eauto.
    Qed.
    Lemma clf_empty x : v_phys vw x -> v_ok vw nf x -> (forall j k, (j < L * opl)%nat -> (k < nf)%nat -> ~ mentions (e_ta e) j k) ->
      exists e1 e2, clf_decision1 S A e x = Ret (Right (replicate L 0), e1) /\ clf_predict1 S A e x = Ret (Right 0, e2).
    Proof.
      intros P1 V1 H. destruct (clf_answers x P1 V1) as [(e1 & E1) (e2 & E2)]. exists e1, e2.
      assert (clf_votes vw a L nf (e_ta e) x = replicate L 0) as Ev.
      { apply list_eq. intros l. destruct (Nat.lt_ge_cases l L) as [Hl|Hl].
        - unfold clf_votes. rewrite list_lookup_fmap, lookup_seq_lt, lookup_replicate_2 by done. cbn [fmap option_fmap option_map Nat.add].
          f_equal. unfold label_vote. rewrite signed_votes_none.
          + pose proof (cc_valid _ _ Hc) as [[] [] _]. unfold clamp. lia.
          + intros j Hj. apply fires_empty. intros k Hk. apply H; [by apply in_label|done].
        - rewrite !lookup_ge_None_2; [done| |]; [by rewrite replicate_length|unfold clf_votes; rewrite map_length, seq_length; lia]. }
      unfold clf_label in E2. rewrite Ev in E1, E2. split; [done|]. rewrite E2. f_equal. f_equal. f_equal.
      assert (forall n, argmax (replicate n 0) = 0%nat) as Q; [|by rewrite Q].
      intros n. destruct n as [|n]; [done|]. cbn [replicate argmax].
      enough (forall n b ix, argmax_from 0 b ix (replicate n 0) = b) as Q by apply Q.
      clear. induction n as [|n IH]; intros b ix; [done|]. cbn [replicate argmax_from]. apply IH.
    Qed.
  End Clf.

  (** ** Regressor *)
  Section Reg.
    Context (a : reg_args) (p : params) (os : list (reg_op A)) (rs : list reg_res) (e : est (a_pol A) (eS S) (eG R) (eF R)).
    Context (Hc : reg_created a p) (Hh : reg_history S A vw p os rs e) (nf : nat) (Hd : reg_dims_of os rs = Some nf).
    Lemma reg_answer x : v_phys vw x -> v_ok vw nf x -> exists e1, reg_predict1 S A e x = Ret (Right (reg_response vw a nf (e_ta e) x), e1).
    Proof.
      intros Hp Hx. pose proof (rc_valid _ _ Hc) as Ha.
      destruct (reg_hist_laws g_ok f_ok HR A vw HA a Ha) as (I & E1n & E1p & E2 & Lw).
      pose proof (reg_history_at g_ok f_ok HR S HS A vw _ _ I E1n E1p E2 Lw a p os rs e Hc eq_refl eq_refl Hh) as Hat.
      rewrite Hd in Hat. destruct Hat as [Hf _]. specialize (Lw True True).
      destruct (reg_predict1_spec g_ok S HS A vw True True _ _ I E1n E1p E2 Lw a nf Ha e Hf x Hp) as [(_ & c & E & _)|(Hn & _)]; [eauto|done].
    Qed.
    Notation n := (Z.to_nat (ra_clauses a / 2)).
    Lemma reg_relevant x x' : v_phys vw x -> v_phys vw x' -> v_ok vw nf x -> v_ok vw nf x' ->
      (forall j k, (j < n)%nat -> (k < nf)%nat -> mentions (e_ta e) j k -> v_x vw x k = v_x vw x' k) ->
      exists v e1 e2, reg_predict1 S A e x = Ret (Right v, e1) /\ reg_predict1 S A e x' = Ret (Right v, e2).
    Proof.
      intros P1 P2 V1 V2 H. destruct (reg_answer x P1 V1) as [e1 E1]. destruct (reg_answer x' P2 V2) as [e2 E2].
      assert (reg_response vw a nf (e_ta e) x' = reg_response vw a nf (e_ta e) x) as Ev.
      { unfold reg_response. f_equal. apply total_votes_ext; [|done]. intros j Hj. symmetry. apply fires_relevant. intros k Hk Hm. by apply (H j k). }
      rewrite Ev in E2. eauto.
    Qed.
    Lemma reg_empty x : v_phys vw x -> v_ok vw nf x -> (forall j k, (j < n)%nat -> (k < nf)%nat -> ~ mentions (e_ta e) j k) ->
      exists e1, reg_predict1 S A e x = Ret (Right 0, e1).
    Proof.
      intros P1 V1 H. destruct (reg_answer x P1 V1) as [e1 E1]. exists e1. rewrite E1. f_equal. f_equal. f_equal.
      unfold reg_response. rewrite total_votes_none.
      - pose proof (rc_valid _ _ Hc) as [[] [] _]. unfold clamp. lia.
      - intros j Hj. apply fires_empty. intros k Hk. by apply H.
    Qed.
  End Reg.
End Relevance.


(** what [mentions] is in terms of stored automata and of polarity bits *)
Lemma mentions_states (R : rnd) (s : tastate (a_pol (classic R))) j k :
  mentions (classic R) (cl_view R) s j k <-> 0 <= nm_cell (ta_matrix s) (2 * j) k \/ 0 <= nm_cell (ta_matrix s) (2 * j + 1) k.
Proof. unfold mentions. cbn. unfold auto_inc, auto_incn. by rewrite !Z.leb_le. Qed.
Lemma mentions_bits (R : rnd) (s : tastate (a_pol (Algo.bitwise R))) j k :
  mentions (Algo.bitwise R) (bw_view R) s j k <-> bm_bit 64 (ta_pol s) (2 * j) k = true \/ bm_bit 64 (ta_pol s) (2 * j + 1) k = true.
Proof. done. Qed.

(** ** Examples *)
Definition unmentioned (m : nmatrix) (nf : nat) (js : list nat) (k : nat) : bool :=
  forallb (fun j => bool_decide (nm_cell m (2 * j) k < 0) && bool_decide (nm_cell m (2 * j + 1) k < 0)) js.
Lemma unmentioned_not (R : rnd) (s : tastate (a_pol (classic R))) nf js k j :
  unmentioned (ta_matrix s) nf js k = true -> j ∈ js -> ~ mentions (classic R) (cl_view R) s j k.
Proof.
  intros H Hj. unfold unmentioned in H. rewrite forallb_forall in H. specialize (H j (proj1 (elem_of_list_In _ _) Hj)).
  apply andb_true_iff in H as [H1%bool_decide_eq_true H2%bool_decide_eq_true]. rewrite mentions_states. lia.
Qed.
(** 20 epochs on XOR of features 0 and 1 *)
Lemma toy_xor : exists e, clf_history toy_sch CL (cl_view toy) toy_clf_params [CFit CL toy_X toy_y 0 20] [CRStatus S_OK] e /\
  (forall j, (j < 4)%nat -> ~ mentions CL (cl_view toy) (e_ta e) j 2) /\ (exists j k, mentions CL (cl_view toy) (e_ta e) j k).
Proof.
  destruct (cl_probe [CFit CL toy_X toy_y 0 20] [CRStatus S_OK]
    (fun e => (unmentioned (ta_matrix (e_ta e)) 3 (seq 0 4) 2, existsb (fun j => negb (unmentioned (ta_matrix (e_ta e)) 3 [j] 0)) (seq 0 4))) (true, true)) as (e & H & Q).
  { vm_compute. reflexivity. }
  exists e. split; [exact H|]. pose proof (f_equal fst Q) as Q1. pose proof (f_equal snd Q) as Q2. cbn [fst snd] in Q1, Q2. split.
  - intros j Hj. eapply unmentioned_not; [exact Q1|]. apply elem_of_seq. lia.
  - apply existsb_exists in Q2 as (j & _ & Q2). exists j, 0%nat. rewrite mentions_states. apply negb_true_iff in Q2.
    unfold unmentioned in Q2. cbn [forallb] in Q2. rewrite andb_true_r in Q2. apply andb_false_iff in Q2 as [Q2|Q2]; apply bool_decide_eq_false in Q2; lia.
Qed.
Lemma toy_label0 : exists e, clf_history toy_sch CL (cl_view toy) toy_clf_params (toy_clf_ops CL toy_X) (toy_clf_res [0; 1; 0; 0] [0; 1; 1; 0]) e /\
  (forall j, (j < 2)%nat -> ~ mentions CL (cl_view toy) (e_ta e) (0 * 2 + j) 0) /\ mentions CL (cl_view toy) (e_ta e) 2 0.
Proof.
  destruct (cl_probe (toy_clf_ops CL toy_X) (toy_clf_res [0; 1; 0; 0] [0; 1; 1; 0])
    (fun e => (unmentioned (ta_matrix (e_ta e)) 3 (seq 0 2) 0, nm_cell (ta_matrix (e_ta e)) 5 0)) (true, 4)) as (e & H & Q).
  { vm_compute. reflexivity. }
  exists e. split; [exact H|]. pose proof (f_equal fst Q) as Q1. pose proof (f_equal snd Q) as Q2. cbn [fst snd] in Q1, Q2. split.
  - intros j Hj. eapply unmentioned_not; [exact Q1|]. apply elem_of_seq. lia.
  - apply mentions_states. right. change (2 * 2 + 1)%nat with 5%nat. rewrite Q2. lia.
Qed.
Lemma toy_clf_empty : exists e, clf_history toy_sch CL (cl_view toy) toy_clf_params [CFit CL [[1]; [1]] [0; 1] 0 1] [CRStatus S_OK] e /\
  forall j, (j < 4)%nat -> ~ mentions CL (cl_view toy) (e_ta e) j 0.
Proof.
  destruct (cl_probe [CFit CL [[1]; [1]] [0; 1] 0 1] [CRStatus S_OK] (fun e => unmentioned (ta_matrix (e_ta e)) 1 (seq 0 4) 0) true) as (e & H & Q).
  { vm_compute. reflexivity. }
  exists e. split; [exact H|]. intros j Hj. eapply unmentioned_not; [exact Q|]. apply elem_of_seq. lia.
Qed.
Lemma toy_reg_unmentioned : exists e, reg_history toy_sch CL (cl_view toy) toy_reg_params [RFit CL toy_X toy_ry 1] [RRStatus S_OK] e /\
  forall j, (j < 2)%nat -> ~ mentions CL (cl_view toy) (e_ta e) j 2.
Proof.
  destruct (rcl_probe [RFit CL toy_X toy_ry 1] [RRStatus S_OK] (fun e => unmentioned (ta_matrix (e_ta e)) 3 (seq 0 2) 2) true) as (e & H & Q).
  { vm_compute. reflexivity. }
  exists e. split; [exact H|]. intros j Hj. eapply unmentioned_not; [exact Q|]. apply elem_of_seq. lia.
Qed.
Lemma toy_reg_empty : exists e, reg_history toy_sch CL (cl_view toy) toy_reg_params [RFit CL [[1]; [0]] [5; 5] 5] [RRStatus S_OK] e /\
  forall j, (j < 2)%nat -> ~ mentions CL (cl_view toy) (e_ta e) j 0.
Proof.
  destruct (rcl_probe [RFit CL [[1]; [0]] [5; 5] 5] [RRStatus S_OK] (fun e => unmentioned (ta_matrix (e_ta e)) 1 (seq 0 2) 0) true) as (e & H & Q).
  { vm_compute. reflexivity. }
  exists e. split; [exact H|]. intros j Hj. eapply unmentioned_not; [exact Q|]. apply elem_of_seq. lia.
Qed.
