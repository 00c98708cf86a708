(** * Histories of public calls from construction: the state they lead to, the answers they give. *)
From Verif Require Export EstStep LawsBitwise.
From stdpp Require Import list.
Local Open Scope Z_scope.

(** the two learning algorithms of the library, with the reading of their samples and automata *)
Inductive tsetlini_algo (R : rnd) : forall A : algo R, aview A -> Prop :=
| algo_classic : tsetlini_algo R (classic R) (cl_view R)
| algo_bitwise : tsetlini_algo R (Algo.bitwise R) (bw_view R).

(** parameter sets an estimator can be created with (see ParamFacts and JsonFacts: the factories return exactly such) *)
Record clf_created (a : clf_args) (p : params) : Prop := {
  cc_valid : clf_valid a; cc_has : clf_has a p; cc_unfitted : forall z, P_number_of_labels p <> Ret z }.
Record reg_created (a : reg_args) (p : params) : Prop := { rc_valid : reg_valid a; rc_has : reg_has a p }.

Lemma wide_enough c N : counting_known c -> 1 <= N <= int_max ->
  (width_of c N = 8 \/ width_of c N = 16 \/ width_of c N = 32) /\ 1 <= N <= 2 ^ (width_of c N - 1).
Proof. intros H1 H2. split; [apply width_cases|by apply width_fits]. Qed.

Section Reach.
  Context {R : rnd} (g_ok : eG R -> Prop) (f_ok : eF R -> Prop) (HR : rnd_ok R g_ok f_ok).
  Context (S : sch) (HS : sch_ok S).
  Context (A : algo R) (vw : aview A).
  Notation est := (est (a_pol A) (eS S) (eG R) (eF R)).

  (** calls [os] on an estimator constructed with [p] all returned, with results [rs], leaving [e] *)
  Definition clf_history (p : params) (os : list (clf_op A)) (rs : list clf_res) (e : est) : Prop :=
    Forall (clf_op_phys A vw) os /\ clf_run S A (construct S A p) os = Ret (rs, e).
  Definition reg_history (p : params) (os : list (reg_op A)) (rs : list reg_res) (e : est) : Prop :=
    Forall (reg_op_phys A vw) os /\ reg_run S A (construct S A p) os = Ret (rs, e).

  Lemma clf_run_snoc (e : est) os o : clf_run S A e (os ++ [o]) =
    (let* '(rs, e1) := clf_run S A e os in let* '(r, e2) := clf_step S A e1 o in Ret (rs ++ [r], e2)).
  Proof.
    unfold clf_run. rewrite ofold_app. destruct (ofold os ([], e) _) as [[rs e1]| | |]; cbn; try done.
    by destruct (clf_step S A e1 o) as [[r e2]| | |].
  Qed.
  Lemma reg_run_snoc (e : est) os o : reg_run S A e (os ++ [o]) =
    (let* '(rs, e1) := reg_run S A e os in let* '(r, e2) := reg_step S A e1 o in Ret (rs ++ [r], e2)).
  Proof.
    unfold reg_run. rewrite ofold_app. destruct (ofold os ([], e) _) as [[rs e1]| | |]; cbn; try done.
    by destruct (reg_step S A e1 o) as [[r e2]| | |].
  Qed.
  Lemma clf_run_len (e : est) os rs e' : clf_run S A e os = Ret (rs, e') -> length rs = length os.
  Proof.
    revert rs e'. induction os as [|o os IH] using rev_ind; intros rs e'.
    - by intros [= <- _].
    - rewrite clf_run_snoc. intros H. apply obind_ret_inv in H as ([rs1 e1] & E1 & H). apply obind_ret_inv in H as ([r e2] & _ & [= <- _]).
      rewrite !app_length. erewrite IH by done. done.
  Qed.
  Lemma reg_run_len (e : est) os rs e' : reg_run S A e os = Ret (rs, e') -> length rs = length os.
  Proof.
    revert rs e'. induction os as [|o os IH] using rev_ind; intros rs e'.
    - by intros [= <- _].
    - rewrite reg_run_snoc. intros H. apply obind_ret_inv in H as ([rs1 e1] & E1 & H). apply obind_ret_inv in H as ([r e2] & _ & [= <- _]).
      rewrite !app_length. erewrite IH by done. done.
  Qed.
  Lemma clf_dims_snoc os rs (o : clf_op A) r : length rs = length os ->
    clf_dims_of (os ++ [o]) (rs ++ [r]) = clf_dims_after (clf_dims_of os rs) o r.
  Proof. intros E. unfold clf_dims_of. rewrite zip_with_app by done. by rewrite foldl_app. Qed.
  Lemma reg_dims_snoc os rs (o : reg_op A) r : length rs = length os ->
    reg_dims_of (os ++ [o]) (rs ++ [r]) = reg_dims_after (reg_dims_of os rs) o r.
  Proof. intros E. unfold reg_dims_of. rewrite zip_with_app by done. by rewrite foldl_app. Qed.

  Lemma clf_history_snoc p os rs e o r e' : clf_history p os rs e -> clf_op_phys A vw o -> clf_step S A e o = Ret (r, e') ->
    clf_history p (os ++ [o]) (rs ++ [r]) e'.
  Proof. intros [H1 H2] Ho E. split; [by apply Forall_app_2; [|constructor]|]. rewrite clf_run_snoc, H2. cbn. by rewrite E. Qed.
  Lemma reg_history_snoc p os rs e o r e' : reg_history p os rs e -> reg_op_phys A vw o -> reg_step S A e o = Ret (r, e') ->
    reg_history p (os ++ [o]) (rs ++ [r]) e'.
  Proof. intros [H1 H2] Ho E. split; [by apply Forall_app_2; [|constructor]|]. rewrite reg_run_snoc, H2. cbn. by rewrite E. Qed.

  (** side conditions vanish when failures are tolerated *)
  Lemma ct_good_true s nf : ct_good g_ok True True s nf.
  Proof.
    unfold ct_good, ct_make. apply wp_bind. destruct (to_u32 _); try done. cbn [wp]. apply wp_bind. destruct (to_u32 _); try done.
    cbn [wp]. split; [|by auto]. split; cbn; by rewrite replicate_length, Nat2Z.id.
  Qed.
  Lemma clf_side_true w a L nf : clf_side g_ok A vw True True w a L nf.
  Proof. constructor; auto. apply ct_good_true. Qed.
  Lemma hits_good_true a bm loss : hits_good g_ok True True a bm loss.
  Proof. intros g err _ _. by destruct (feedback_hits _ _ _ _). Qed.
  Lemma reg_hits_true a : reg_hits g_ok True True a.
  Proof. intros loss _. apply hits_good_true. Qed.
  Lemma reg_side_true w a nf : reg_side g_ok A vw True True w a nf.
  Proof. constructor; auto. apply ct_good_true. apply reg_hits_true. Qed.
  Lemma clf_op_side_true w a d o : clf_op_side g_ok A vw True True w a d o.
  Proof.
    destruct o; cbn; auto; try (destruct d as [[? ?]|]; cbn; auto); split; auto; intros; apply clf_side_true.
  Qed.
  Lemma reg_op_side_true w a d o : reg_op_side g_ok A vw True True w a d o.
  Proof. destruct o; cbn; auto; try destruct d; intros; auto using reg_side_true, reg_hits_true. Qed.

  Section Laws.
    Context (w N : Z) (I : nat -> nat -> nmatrix -> a_pol A -> Prop).
    Context (E1n : nat -> coin_tosser -> a_smp A -> nat -> amp A -> amp A -> Prop).
    Context (E1p : bool -> nat -> coin_tosser -> a_smp A -> nat -> amp A -> amp A -> Prop).
    Context (E2 : nat -> a_smp A -> nat -> amp A -> amp A -> Prop).
    Context (Lw : forall U V, laws A g_ok vw U V w N I E1n E1p E2).

    Lemma clf_history_at a p os rs e : clf_created a p -> N = ca_states a -> w = width_of (ca_counting a) (ca_states a) ->
      clf_history p os rs e -> clf_at g_ok f_ok S A True True I a p (clf_dims_of os rs) e.
    Proof.
      intros [Ha Hh Hl] HN Hw. revert rs e. induction os as [|o os IH] using rev_ind; intros rs e [Hp Hr].
      - by injection Hr as <- <-.
      - apply Forall_app in Hp as [Hp Ho]. apply Forall_cons in Ho as [Ho _].
        rewrite clf_run_snoc in Hr. apply obind_ret_inv in Hr as ([rs1 e1] & E1 & Hr).
        apply obind_ret_inv in Hr as ([r e2] & Estep & [= <- <-]).
        rewrite clf_dims_snoc by (by eapply clf_run_len).
        pose proof (clf_step_spec g_ok f_ok HR S HS A vw True True w N I E1n E1p E2 (Lw _ _) a Ha HN Hw p _ e1 o Hh Hl
          (IH rs1 e1 (conj Hp E1)) Ho (clf_op_side_true _ _ _ _)) as Hs.
        rewrite Estep in Hs. apply Hs.
    Qed.
    Lemma reg_history_at a p os rs e : reg_created a p -> N = ra_states a -> w = width_of (ra_counting a) (ra_states a) ->
      reg_history p os rs e -> reg_at g_ok S A True True I a p (reg_dims_of os rs) e.
    Proof.
      intros [Ha Hh] HN Hw. revert rs e. induction os as [|o os IH] using rev_ind; intros rs e [Hp Hr].
      - by injection Hr as <- <-.
      - apply Forall_app in Hp as [Hp Ho]. apply Forall_cons in Ho as [Ho _].
        rewrite reg_run_snoc in Hr. apply obind_ret_inv in Hr as ([rs1 e1] & E1 & Hr).
        apply obind_ret_inv in Hr as ([r e2] & Estep & [= <- <-]).
        rewrite reg_dims_snoc by (by eapply reg_run_len).
        pose proof (reg_step_spec g_ok f_ok HR S HS A vw True True w N I E1n E1p E2 (Lw _ _) a Ha HN Hw p _ e1 o Hh
          (IH rs1 e1 (conj Hp E1)) Ho (reg_op_side_true _ _ _ _)) as Hs.
        rewrite Estep in Hs. apply Hs.
    Qed.

    (** a reachable estimator satisfies the stronger invariant of every mode, given that its coin tosser is well behaved *)
    Lemma ct_ok_rate U V n ct ct' : ct_ok R g_ok U V n ct -> same_rate ct ct' -> ct_len n ct' -> ct_ok R g_ok U V n ct'.
    Proof.
      intros (_ & Hz & Hh) (E1 & E2' & E3) Hl. split; [done|]. unfold ct_zero, ct_hits_le in *. rewrite E2', E3. done.
    Qed.
    Lemma clf_at_mode U V a p d e : clf_at g_ok f_ok S A True True I a p d e ->
      (forall L nf, d = Some (L, nf) -> ct_good g_ok U V (ca_s a) nf) -> clf_at g_ok f_ok S A U V I a p d e.
    Proof.
      destruct d as [[L nf]|]; [|done]. intros [(Hv & Hd & [H1 H2 H3 H4 H5 H6 H7]) Ep] Hct. split; [|done]. split; [done|]. split; [done|].
      constructor; try done. destruct H5 as (ct0 & E0 & Hr). specialize (Hct _ _ eq_refl). unfold ct_good in Hct. rewrite E0 in Hct.
      eapply ct_ok_rate; [exact Hct|done|apply H4].
    Qed.
    Lemma reg_at_mode U V a p d e : reg_at g_ok S A True True I a p d e ->
      (forall nf, d = Some nf -> ct_good g_ok U V (ra_s a) nf) -> reg_at g_ok S A U V I a p d e.
    Proof.
      destruct d as [nf|]; [|done]. intros [(Hv & Hd & [H1 H2 H3 H4 H5 H6]) Ep] Hct. split; [|done]. split; [done|]. split; [done|].
      constructor; try done. destruct H5 as (ct0 & E0 & Hr). specialize (Hct _ eq_refl). unfold ct_good in Hct. rewrite E0 in Hct.
      eapply ct_ok_rate; [exact Hct|done|apply H4].
    Qed.

    (** one more call, in any mode *)
    Lemma clf_call U V a p os rs e o : clf_created a p -> N = ca_states a -> w = width_of (ca_counting a) (ca_states a) ->
      clf_history p os rs e -> clf_op_phys A vw o ->
      (forall L nf, clf_dims_of os rs = Some (L, nf) -> ct_good g_ok U V (ca_s a) nf) ->
      clf_op_side g_ok A vw U V w a (clf_dims_of os rs) o ->
      wp U V (clf_step S A e o) (fun '(r, e') =>
        clf_answer A vw a (clf_dims_of os rs) (e_ta e) o r /\ clf_frame S A o r e e' /\
        clf_at g_ok f_ok S A U V I a p (clf_dims_of (os ++ [o]) (rs ++ [r])) e').
    Proof.
      intros Hc HN Hw Hh Ho Hct Hs. pose proof (clf_history_at _ _ _ _ _ Hc HN Hw Hh) as Hat.
      apply (clf_at_mode U V) in Hat; [|done]. destruct Hc as [Ha Hp Hl].
      eapply wp_mono; [by apply (clf_step_spec g_ok f_ok HR S HS A vw U V w N I E1n E1p E2 (Lw _ _) a Ha HN Hw p _ e o Hp Hl Hat)|].
      intros [r e'] (H1 & H2 & H3). split; [done|]. split; [done|].
      rewrite clf_dims_snoc; [done|]. destruct Hh as [_ Hr]. by eapply clf_run_len.
    Qed.
    Lemma reg_call U V a p os rs e o : reg_created a p -> N = ra_states a -> w = width_of (ra_counting a) (ra_states a) ->
      reg_history p os rs e -> reg_op_phys A vw o ->
      (forall nf, reg_dims_of os rs = Some nf -> ct_good g_ok U V (ra_s a) nf) ->
      reg_op_side g_ok A vw U V w a (reg_dims_of os rs) o ->
      wp U V (reg_step S A e o) (fun '(r, e') =>
        reg_answer A vw a (reg_dims_of os rs) (e_ta e) o r /\ reg_frame S A o r e e' /\
        reg_at g_ok S A U V I a p (reg_dims_of (os ++ [o]) (rs ++ [r])) e').
    Proof.
      intros Hc HN Hw Hh Ho Hct Hs. pose proof (reg_history_at _ _ _ _ _ Hc HN Hw Hh) as Hat.
      apply (reg_at_mode U V) in Hat; [|done]. destruct Hc as [Ha Hp].
      eapply wp_mono; [by apply (reg_step_spec g_ok f_ok HR S HS A vw U V w N I E1n E1p E2 (Lw _ _) a Ha HN Hw p _ e o Hp Hat)|].
      intros [r e'] (H1 & H2 & H3). split; [done|]. split; [done|].
      rewrite reg_dims_snoc; [done|]. destruct Hh as [_ Hr]. by eapply reg_run_len.
    Qed.
  End Laws.

  (** structural laws hold for both algorithms and every number of states *)
  Lemma algo_laws (w N : Z) : tsetlini_algo R A vw -> (w = 8 \/ w = 16 \/ w = 32) -> 1 <= N <= 2 ^ (w - 1) ->
    exists I E1n E1p E2, forall U V, laws A g_ok vw U V w N I E1n E1p E2.
  Proof.
    intros H Hw HN. destruct H.
    - eexists _, _, _, _. intros U V. by apply (classic_laws R g_ok f_ok HR).
    - eexists _, _, _, _. intros U V. by apply (bitwise_laws_struct R g_ok f_ok HR).
  Qed.
End Reach.
