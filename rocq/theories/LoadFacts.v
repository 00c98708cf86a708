(** * Facts about loading step by step (LoadState.v): agreement with StateJson.v, the outcomes of a load, clauses that are not there. *)
From Verif Require Import FloatFacts.
From Verif Require Export LoadState StateProps.
From stdpp Require Import list.
Local Open Scope Z_scope.

(** the two models of from_json_string say the same about loads that return, throw or are undefined *)
Definition load_agrees {A} (o : outcome A) (l : outcome (option exn * A)) : Prop :=
  match o with
  | Ret a => l = Ret (None, a)
  | Throw x => exists a, l = Ret (Some x, a)
  | UB u => l = UB u
  | OutOfFuel => l = OutOfFuel
  end.
Section Facts.
  Context {P : Type} (C : pol_codec P) (S : sch).
  Notation cache := (cache (eS S)).
  Notation est := (est P (eS S) irng frng).

  Lemma clf_steps_agree p (c : cache) : load_agrees (clf_cache_reset S p c) (clf_reset_steps S p c).
  Proof.
    unfold clf_cache_reset, clf_reset_steps. destruct (P_clf_outputs p); cbn; try done; [|by eexists].
    destruct (P_number_of_labels p); cbn; try done; [|by eexists]. destruct (P_s p); cbn; try done; [|by eexists].
    destruct (P_number_of_features p); cbn; try done; [|by eexists]. destruct (ct_make _ _); cbn; try done. by eexists.
  Qed.
  Lemma reg_steps_agree p (c : cache) : load_agrees (reg_cache_reset S p c) (reg_reset_steps S p c).
  Proof.
    unfold reg_cache_reset, reg_reset_steps. destruct (P_reg_outputs p); cbn; try done; [|by eexists].
    destruct (P_s p); cbn; try done; [|by eexists].
    destruct (P_number_of_features p); cbn; try done; [|by eexists]. destruct (ct_make _ _); cbn; try done. by eexists.
  Qed.
  Lemma load_from_json reset steps (e : est) js : (forall p, load_agrees (reset p (e_cache e)) (steps p (e_cache e))) ->
    load_agrees (from_json C S reset e js) (load C S steps e js).
  Proof.
    intros Hs. unfold from_json, load, read_igen, read_fgen, read_ta, read_params_t.
    destruct (j_at js "igen") as [ji| | |]; cbn [obind attempt load_agrees]; try done; [|by eexists].
    destruct (irng_from_json ji); cbn [obind attempt load_agrees]; try done; [|by eexists].
    destruct (j_at js "fgen") as [jf| | |]; cbn [obind attempt load_agrees]; try done; [|by eexists].
    destruct (frng_from_json jf); cbn [obind attempt load_agrees]; try done; [|by eexists].
    destruct (j_at js "ta_state") as [jt| | |]; cbn [obind attempt load_agrees]; try done; [|by eexists].
    destruct (ta_from_json C jt); cbn [obind attempt load_agrees]; try done; [|by eexists].
    destruct (j_at js "params") as [jp| | |]; cbn [obind attempt load_agrees]; try done; [|by eexists].
    destruct (params_from_json jp) as [p| | |]; cbn [obind attempt load_agrees]; try done; [|by eexists].
    cbn [e_params e_cache e_ta e_igen e_fgen]. specialize (Hs (recast_params p)). destruct (reset _ _); cbn in Hs |- *; [| |by rewrite Hs..].
    - by rewrite Hs.
    - destruct Hs as [c ->]. by eexists.
  Qed.

  (** a load that throws before the three members are read leaves everything but the generators alone *)
  Lemma load_unread steps (e e' : est) js x : load C S steps e js = Ret (Some x, e') ->
    ~ (exists g f t, read_igen js = Ret g /\ read_fgen js = Ret f /\ read_ta C js = Ret t) ->
    e_params e' = e_params e /\ e_ta e' = e_ta e /\ e_cache e' = e_cache e.
  Proof.
    unfold load. intros H Hn. destruct (read_igen js) as [g| | |]; cbn [attempt] in H; try done; [|by injection H as _ <-].
    destruct (read_fgen js) as [f| | |]; cbn [attempt] in H; try done; [|by injection H as _ <-].
    destruct (read_ta C js) as [t| | |]; cbn [attempt] in H; try done; [|by injection H as _ <-].
    destruct Hn. by exists g, f, t.
  Qed.
  (** a load that throws because of the parameters has replaced the model and the generators, and nothing else *)
  Lemma load_no_params steps (e : est) js g f t x : read_igen js = Ret g -> read_fgen js = Ret f -> read_ta C js = Ret t -> read_params_t js = Throw x ->
    load C S steps e js = Ret (Some x, Est (e_params e) t (e_cache e) (mt_assign g) (mt_assign f)).
  Proof. unfold load. intros -> -> -> ->. done. Qed.
End Facts.

(** ** Calls that only read do not look at the generators *)
Section Reads.
  Context {R : rnd} (S : sch) (A : algo R).
  Notation est := (est (a_pol A) (eS S) (eG R) (eF R)).
  Definition same_but_gens (e e' : est) : Prop := e_params e' = e_params e /\ e_ta e' = e_ta e /\ e_cache e' = e_cache e.
  Definition same_answer {RES} (r1 r2 : RES * est) : Prop := r2.1 = r1.1 /\ same_but_gens r1.2 r2.2.
  Ltac go := repeat first
    [ match goal with |- orel _ (obind ?o _) (obind ?o _) => apply orel_same; intros ? _ end
    | match goal with |- orel _ (if decide ?d then _ else _) _ => destruct (decide d) end
    | match goal with x : prod _ _ |- _ => destruct x end
    | match goal with |- context [label_votes S A (Est ?p ?t ?c ?g ?f)] => progress (change (label_votes S A (Est p t c g f)) with (fun x c' L opl T n nj tile =>
        let* c' := calc_clause_output_pruned S A x c' n t nj tile in
        let* ls := sum_up_all_label_votes (ca_out c') (ta_weights t) (ca_sum c') L opl T in Ret (with_sum S ls c'))) end
    | progress cbv beta zeta | progress cbn [e_params e_ta e_cache e_igen e_fgen obind orel] | (split; [exact eq_refl|split; [|split]; exact eq_refl]) ].
  Lemma clf_read_same o (e e' : est) : clf_const A o -> same_but_gens e e' -> orel same_answer (clf_step S A e o) (clf_step S A e' o).
  Proof.
    destruct e as [p t c g f], e' as [p' t' c' g' f']. intros Ho (E1 & E2 & E3). cbn in E1, E2, E3. subst p' t' c'.
    destruct o; try done; cbn [clf_step]; (apply orel_bind with (P := same_answer);
      [|intros [r1 q1] [r2 q2] _ _ [Eq Hq]; cbn in Eq, Hq; subst r2; by split]).
    - unfold clf_predict1. change (check_for_predict S A (Est p t c g' f')) with (check_for_predict S A (Est p t c g f)). go.
    - unfold clf_predict. change (check_for_predict_batch S A (Est p t c g' f')) with (check_for_predict_batch S A (Est p t c g f)). go.
    - unfold clf_decision1. change (check_for_predict S A (Est p t c g' f')) with (check_for_predict S A (Est p t c g f)). go.
    - unfold clf_decision. change (check_for_predict_batch S A (Est p t c g' f')) with (check_for_predict_batch S A (Est p t c g f)). go.
    - unfold clf_evaluate. go.
  Qed.
  Lemma reg_read_same o (e e' : est) : reg_const A o -> same_but_gens e e' -> orel same_answer (reg_step S A e o) (reg_step S A e' o).
  Proof.
    destruct e as [p t c g f], e' as [p' t' c' g' f']. intros Ho (E1 & E2 & E3). cbn in E1, E2, E3. subst p' t' c'.
    destruct o; try done; cbn [reg_step]; (apply orel_bind with (P := same_answer);
      [|intros [r1 q1] [r2 q2] _ _ [Eq Hq]; cbn in Eq, Hq; subst r2; by split]).
    - unfold reg_predict1. change (check_for_predict S A (Est p t c g' f')) with (check_for_predict S A (Est p t c g f)). go.
    - unfold reg_predict. change (check_for_predict_batch S A (Est p t c g' f')) with (check_for_predict_batch S A (Est p t c g f)). go.
  Qed.
  Lemma clf_reads_same os (e e' : est) : Forall (clf_const A) os -> same_but_gens e e' -> orel same_answer (clf_run S A e os) (clf_run S A e' os).
  Proof.
    intros Ho He. induction os as [|o os IH] using rev_ind; [by split|]. rewrite !clf_run_snoc. apply Forall_app in Ho as [Ho1 Ho2].
    apply orel_bind with (P := same_answer); [by apply IH|]. intros [r1 q1] [r2 q2] _ _ [Eq Hq]. cbn in Eq, Hq. subst r2.
    apply orel_bind with (P := same_answer); [apply clf_read_same; [by rewrite Forall_singleton in Ho2|done]|].
    intros [r3 q3] [r4 q4] _ _ [Eq' Hq']. cbn in Eq', Hq'. subst r4. by split.
  Qed.
  Lemma reg_reads_same os (e e' : est) : Forall (reg_const A) os -> same_but_gens e e' -> orel same_answer (reg_run S A e os) (reg_run S A e' os).
  Proof.
    intros Ho He. induction os as [|o os IH] using rev_ind; [by split|]. rewrite !reg_run_snoc. apply Forall_app in Ho as [Ho1 Ho2].
    apply orel_bind with (P := same_answer); [by apply IH|]. intros [r1 q1] [r2 q2] _ _ [Eq Hq]. cbn in Eq, Hq. subst r2.
    apply orel_bind with (P := same_answer); [apply reg_read_same; [by rewrite Forall_singleton in Ho2|done]|].
    intros [r3 q3] [r4 q4] _ _ [Eq' Hq']. cbn in Eq', Hq'. subst r4. by split.
  Qed.
End Reads.
