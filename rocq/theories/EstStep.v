(** * One public call on an estimator in any reachable state; histories of public calls. *)
From Verif Require Export EstFit.
From stdpp Require Import list.
Local Open Scope Z_scope.

(** ** What a history of calls says about an estimator: Some (labels, features) once training has succeeded *)
Section Dims.
  Context {R : rnd} {A : algo R}.
  Definition features_of (X : list (a_smp A)) : nat := match X with [] => 0%nat | x :: _ => a_size A x end.
  Definition clf_dims_after (d : option (nat * nat)) (o : clf_op A) (r : clf_res) : option (nat * nat) :=
    match o, r with
    | CFit _ X y ml _, CRStatus S_OK => Some (Z.to_nat (n_labels y ml), features_of X)
    | CPartialFit _ X y ml _, CRStatus S_OK =>
        match d with None => Some (Z.to_nat (n_labels y ml), features_of X) | Some _ => d end
    | _, _ => d
    end.
  Definition clf_dims_of (os : list (clf_op A)) (rs : list clf_res) : option (nat * nat) :=
    foldl (fun d '(o, r) => clf_dims_after d o r) None (zip os rs).
  Definition reg_dims_after (d : option nat) (o : reg_op A) (r : reg_res) : option nat :=
    match o, r with
    | RFit _ X y _, RRStatus S_OK => Some (features_of X)
    | RPartialFit _ X y _, RRStatus S_OK => match d with None => Some (features_of X) | Some _ => d end
    | _, _ => d
    end.
  Definition reg_dims_of (os : list (reg_op A)) (rs : list reg_res) : option nat :=
    foldl (fun d '(o, r) => reg_dims_after d o r) None (zip os rs).
End Dims.

Section Step.
  Context {R : rnd} (g_ok : eG R -> Prop) (f_ok : eF R -> Prop) (HR : rnd_ok R g_ok f_ok).
  Context (S : sch) (HS : sch_ok S).
  Context (A : algo R) (vw : aview A) (U V : Prop).
  Context (w N : Z) (I : nat -> nat -> nmatrix -> a_pol A -> Prop).
  Context (E1n : nat -> coin_tosser -> a_smp A -> nat -> amp A -> amp A -> Prop).
  Context (E1p : bool -> nat -> coin_tosser -> a_smp A -> nat -> amp A -> amp A -> Prop).
  Context (E2 : nat -> a_smp A -> nat -> amp A -> amp A -> Prop).
  Context (Lw : laws A g_ok vw U V w N I E1n E1p E2).

  Notation G := (eG R).
  Notation F := (eF R).
  Notation smp := (a_smp A).
  Notation ta := (tastate (a_pol A)).
  Notation cache := (cache (eS S)).
  Notation est := (est (a_pol A) (eS S) G F).
  Notation clf_core := (clf_core g_ok f_ok S A U V I).
  Notation reg_core := (reg_core g_ok S A U V I).
  Notation clf_fitted := (clf_fitted g_ok f_ok S A U V I).
  Notation reg_fitted := (reg_fitted g_ok S A U V I).
  Notation data_ok := (data_ok A vw).

  Lemma features_of_ok nf X y : data_ok nf X y -> features_of X = nf.
  Proof.
    intros [[Hne HX] _]. destruct X as [|x X]; [done|]. apply Forall_cons in HX as [Hx _].
    by eapply (l_size _ _ _ _ _ _ _ _ _ _ _ Lw).
  Qed.

  (** ** Classifier *)
  Section Clf.
    Context (a : clf_args) (Ha : clf_valid a) (HN : N = ca_states a) (Hw : w = width_of (ca_counting a) (ca_states a)).
    Notation opl := (clf_opl a).
    Notation T := (ca_threshold a).
    Notation clf_side := (clf_side g_ok A vw U V w a).

    (** an estimator constructed with [p0] after calls which led to [d] *)
    Definition clf_at (p0 : params) (d : option (nat * nat)) (e : est) : Prop :=
      match d with
      | None => e = construct S A p0
      | Some (L, nf) => clf_fitted a L nf e /\ e_params e = clf_fit_params L nf p0
      end.
    Lemma clf_at_has p0 d e : clf_has a p0 -> clf_at p0 d e ->
      clf_has a (e_params e) /\ weights_pre (ca_weighted a) (ca_max_weight a) (ta_weights (e_ta e)) /\
      forall L nf, clf_fit_params L nf (e_params e) = clf_fit_params L nf p0.
    Proof.
      intros Hh. destruct d as [[L nf]|].
      - intros [(_ & [] & []) Ep].
        split; [done|]. split; [by eapply weights_ok_pre|]. intros L' nf'. rewrite Ep. apply clf_fit_params_again.
      - cbn. intros ->. split; [done|]. split; [|done]. unfold weights_pre. destruct (ca_weighted a); [constructor|done].
    Qed.

    (** typing of the arguments of a call: samples are objects the sample class can construct *)
    Definition clf_op_phys (o : clf_op A) : Prop :=
      match o with
      | CFit _ X y _ _ | CPartialFit _ X y _ _ => Forall (v_phys vw) X
      | CPredict1 _ x | CDecision1 _ x => v_phys vw x
      | CPredict _ X | CDecision _ X => Forall (v_phys vw) X
      | CEvaluate _ X y => True
      end.
    (** conditions for absence of failures; trivial when failures are tolerated *)
    Definition clf_fit_side (X : list smp) (y : list Z) (ml : Z) : Prop :=
      (Forall (fun v => int_min <= v < int_max) y \/ U) /\
      (forall nf, data_ok nf X y -> Forall (fun v => 0 <= v) y -> clf_side (Z.to_nat (n_labels y ml)) nf).
    Definition evaluate_ok (d : option (nat * nat)) (X : list smp) (y : list Z) : Prop :=
      match d with
      | None => False
      | Some (_, nf) => Forall (v_ok vw nf) X /\ (length X <= length y)%nat /\ Z.of_nat (length X) <= int_max
      end.
    Definition clf_op_side (d : option (nat * nat)) (o : clf_op A) : Prop :=
      match o with
      | CFit _ X y ml _ => clf_fit_side X y ml
      | CPartialFit _ X y ml _ =>
          match d with
          | None => clf_fit_side X y ml
          | Some (L, _) => ((2 <= L)%nat \/ U) /\ (T * 2 <= int_max \/ U)
          end
      | CEvaluate _ X y => evaluate_ok d X y \/ (U /\ V)
      | _ => True
      end.

    (** ** Specification of the answers *)
    Definition clf_answer (d : option (nat * nat)) (s : ta) (o : clf_op A) (r : clf_res) : Prop :=
      match o with
      | CFit _ X y ml _ =>
          (clf_fit_ok A vw X y /\ r = CRStatus S_OK) \/ (~ clf_fit_ok A vw X y /\ r = CRStatus S_VALUE_ERROR)
      | CPartialFit _ X y ml _ =>
          match d with
          | None => (clf_fit_ok A vw X y /\ r = CRStatus S_OK) \/ (~ clf_fit_ok A vw X y /\ r = CRStatus S_VALUE_ERROR)
          | Some (L, nf) =>
              (clf_more_ok A vw L nf X y /\ r = CRStatus S_OK) \/ (~ clf_more_ok A vw L nf X y /\ r = CRStatus S_VALUE_ERROR)
          end
      | CPredict1 _ x =>
          match d with
          | None => r = CRLabel (Left S_NOT_FITTED_ERROR)
          | Some (L, nf) => (v_ok vw nf x /\ r = CRLabel (Right (clf_label vw a L nf s x))) \/
                            (~ v_ok vw nf x /\ r = CRLabel (Left S_VALUE_ERROR))
          end
      | CPredict _ X =>
          match d with
          | None => r = CRLabels (Left S_NOT_FITTED_ERROR)
          | Some (L, nf) => (batch_ok A vw nf X /\ r = CRLabels (Right (clf_label vw a L nf s <$> X))) \/
                            (~ batch_ok A vw nf X /\ r = CRLabels (Left S_VALUE_ERROR))
          end
      | CDecision1 _ x =>
          match d with
          | None => r = CRVotes (Left S_NOT_FITTED_ERROR)
          | Some (L, nf) => (v_ok vw nf x /\ r = CRVotes (Right (clf_votes vw a L nf s x))) \/
                            (~ v_ok vw nf x /\ r = CRVotes (Left S_VALUE_ERROR))
          end
      | CDecision _ X =>
          match d with
          | None => r = CRVotess (Left S_NOT_FITTED_ERROR)
          | Some (L, nf) => (batch_ok A vw nf X /\ r = CRVotess (Right (clf_votes vw a L nf s <$> X))) \/
                            (~ batch_ok A vw nf X /\ r = CRVotess (Left S_VALUE_ERROR))
          end
      | CEvaluate _ X y =>
          match d with
          | None => False
          | Some (L, nf) => Forall (v_ok vw nf) X -> (length X <= length y)%nat -> Z.of_nat (length X) <= int_max ->
              r = CRScore (Right (accuracy32
                (Z.of_nat (length (filter (fun '(x, yi) => clf_label vw a L nf s x <> yi) (zip X y)))) (Z.of_nat (length X))))
          end
      end.
    (** what a call may change *)
    Definition clf_frame (o : clf_op A) (r : clf_res) (e e' : est) : Prop :=
      match o with
      | CFit _ _ _ _ _ | CPartialFit _ _ _ _ _ => r = CRStatus S_OK \/ e' = e
      | _ => exists c, e' = with_cache S A c e /\ keep S (e_cache e) c
      end.

    Lemma clf_fit_step p0 d (e : est) X y ml epochs : clf_has a p0 -> clf_at p0 d e -> Forall (v_phys vw) X -> clf_fit_side X y ml ->
      wp U V (clf_fit S A e X y ml epochs) (fun '(st, e') =>
        (clf_fit_ok A vw X y /\ st = S_OK /\ clf_at p0 (Some (Z.to_nat (n_labels y ml), features_of X)) e') \/
        (~ clf_fit_ok A vw X y /\ st = S_VALUE_ERROR /\ e' = e)).
    Proof.
      intros Hh Hst HX [H1 H2]. destruct (clf_at_has p0 d e Hh Hst) as (Hh' & Hws & Hpar).
      eapply wp_mono; [by apply (clf_fit_spec g_ok f_ok HR S HS A vw U V w N I E1n E1p E2 Lw a Ha HN Hw)|].
      intros [st e'] [(Hok & -> & nf & L & Hd & EL & Ep & Hf & _)|(Hno & -> & ->)]; [left|by right].
      split; [done|]. split; [done|]. rewrite (features_of_ok _ _ _ Hd), <- EL, Nat2Z.id. split; [done|]. by rewrite Ep, Hpar.
    Qed.

    Lemma clf_step_spec p0 d (e : est) o : clf_has a p0 -> (forall z, P_number_of_labels p0 <> Ret z) ->
      clf_at p0 d e -> clf_op_phys o -> clf_op_side d o ->
      wp U V (clf_step S A e o) (fun '(r, e') =>
        clf_at p0 (clf_dims_after d o r) e' /\ clf_answer d (e_ta e) o r /\ clf_frame o r e e').
    Proof.
      intros Hh Hnl Hst Hp Hs.
      destruct o as [X y ml epochs|X y ml epochs|x|X|x|X|X y]; cbn [clf_op_phys clf_op_side clf_answer clf_frame] in *; unfold clf_step; apply wp_bind.
      - eapply wp_mono; [by eapply clf_fit_step|]. intros [st e'] [(Hok & -> & Hat)|(Hno & -> & ->)]; cbn [wp clf_dims_after]; auto 6.
      - unfold clf_partial_fit. destruct d as [[L nf]|].
        + pose proof Hst as [Hf Ep]. destruct Hs as [HL HT2].
          rewrite (clf_fitted_true _ _ _ _ _ _ _ _ _ _ _ _ _ Lw a Ha _ _ _ Hf).
          eapply wp_mono; [by apply (clf_online_checked_spec g_ok f_ok HR S HS A vw U V w N I E1n E1p E2 Lw a Ha HN e L nf X y ml epochs Hp Hf)|].
          intros [st e'] [(Hok & -> & Ep' & Hf')|(Hno & -> & ->)]; cbn [wp clf_dims_after clf_at]; [|auto 6].
          split; [|by auto]. split; [done|congruence].
        + cbn [clf_at] in Hst. subst e. rewrite is_fitted_construct.
          eapply wp_mono; [by eapply (clf_fit_step p0 None)|]. intros [st e'] [(Hok & -> & Hat)|(Hno & -> & ->)]; cbn [wp clf_dims_after clf_at]; auto 6.
      - destruct d as [[L nf]|]; [destruct Hst as [Hf Ep]|cbn [clf_at] in Hst; subst e].
        + destruct (clf_predict1_spec g_ok f_ok S HS A vw U V w N I E1n E1p E2 Lw a L nf Ha e Hf x Hp) as [(? & c & -> & K)|(? & ->)];
            cbn [wp clf_dims_after clf_at].
          * split; [split; [by apply clf_keep_fitted|done]|]. split; [by left|by exists c].
          * split; [done|]. split; [by right|]. exists (e_cache e). by destruct e.
        + unfold clf_predict1. rewrite check_single_unfitted by done. cbn. split; [done|]. split; [done|]. by exists (cache0 S).
      - destruct d as [[L nf]|]; [destruct Hst as [Hf Ep]|cbn [clf_at] in Hst; subst e].
        + destruct (clf_predict_spec g_ok f_ok S HS A vw U V w N I E1n E1p E2 Lw a L nf Ha e Hf X Hp) as [(? & c & -> & K)|(? & ->)];
            cbn [wp clf_dims_after clf_at].
          * split; [split; [by apply clf_keep_fitted|done]|]. split; [by left|by exists c].
          * split; [done|]. split; [by right|]. exists (e_cache e). by destruct e.
        + unfold clf_predict. rewrite check_batch_unfitted by done. cbn. split; [done|]. split; [done|]. by exists (cache0 S).
      - destruct d as [[L nf]|]; [destruct Hst as [Hf Ep]|cbn [clf_at] in Hst; subst e].
        + destruct (clf_decision1_spec g_ok f_ok S HS A vw U V w N I E1n E1p E2 Lw a L nf Ha e Hf x Hp) as [(? & c & -> & K)|(? & ->)];
            cbn [wp clf_dims_after clf_at].
          * split; [split; [by apply clf_keep_fitted|done]|]. split; [by left|by exists c].
          * split; [done|]. split; [by right|]. exists (e_cache e). by destruct e.
        + unfold clf_decision1. rewrite check_single_unfitted by done. cbn. split; [done|]. split; [done|]. by exists (cache0 S).
      - destruct d as [[L nf]|]; [destruct Hst as [Hf Ep]|cbn [clf_at] in Hst; subst e].
        + destruct (clf_decision_spec g_ok f_ok S HS A vw U V w N I E1n E1p E2 Lw a L nf Ha e Hf X Hp) as [(? & c & -> & K)|(? & ->)];
            cbn [wp clf_dims_after clf_at].
          * split; [split; [by apply clf_keep_fitted|done]|]. split; [by left|by exists c].
          * split; [done|]. split; [by right|]. exists (e_cache e). by destruct e.
        + unfold clf_decision. rewrite check_batch_unfitted by done. cbn. split; [done|]. split; [done|]. by exists (cache0 S).
      - destruct d as [[L nf]|]; [pose proof Hst as [Hf Ep]|cbn [clf_at] in Hst; subst e].
        + destruct (clf_evaluate S A e X y) as [[r e']| | |] eqn:E; cbn [wp].
          { split.
            - apply evaluate_keep in E as (c & -> & K). cbn [clf_dims_after clf_at]. split; [by apply clf_keep_fitted|done].
            - split; [|by apply evaluate_keep in E as (c & -> & K); eauto].
              intros H1 H2 H3. destruct (clf_evaluate_spec g_ok f_ok S HS A vw U V w N I E1n E1p E2 Lw a L nf Ha e Hf X y H1 H2 H3) as (c & E' & _).
              rewrite E' in E. by injection E as <- <-. }
          all: destruct Hs as [(H1 & H2 & H3)|[? ?]]; [|done];
            destruct (clf_evaluate_spec g_ok f_ok S HS A vw U V w N I E1n E1p E2 Lw a L nf Ha e Hf X y H1 H2 H3) as (c & E' & _); congruence.
        + destruct Hs as [[]|[HU HV]]. unfold clf_evaluate. cbn [construct e_params].
          destruct (P_number_of_labels p0) as [z| | |] eqn:E; [by destruct (Hnl z)|done|done|done].
    Qed.
  End Clf.

  (** ** Regressor *)
  Section Reg.
    Context (a : reg_args) (Ha : reg_valid a) (HN : N = ra_states a) (Hw : w = width_of (ra_counting a) (ra_states a)).
    Notation T := (ra_threshold a).
    Notation reg_side := (reg_side g_ok A vw U V w a).
    Definition reg_at (p0 : params) (d : option nat) (e : est) : Prop :=
      match d with
      | None => e = construct S A p0
      | Some nf => reg_fitted a nf e /\ e_params e = reg_fit_params nf p0
      end.
    Lemma reg_at_has p0 d e : reg_has a p0 -> reg_at p0 d e ->
      reg_has a (e_params e) /\ weights_pre (ra_weighted a) (ra_max_weight a) (ta_weights (e_ta e)) /\
      forall nf, reg_fit_params nf (e_params e) = reg_fit_params nf p0.
    Proof.
      intros Hh. destruct d as [nf|].
      - intros [(_ & [] & []) Ep].
        split; [done|]. split; [by eapply weights_ok_pre|]. intros nf'. rewrite Ep. apply reg_fit_params_again.
      - cbn. intros ->. split; [done|]. split; [|done]. unfold weights_pre. destruct (ra_weighted a); [constructor|done].
    Qed.
    Definition reg_op_phys (o : reg_op A) : Prop :=
      match o with
      | RFit _ X y _ | RPartialFit _ X y _ => Forall (v_phys vw) X
      | RPredict1 _ x => v_phys vw x
      | RPredict _ X => Forall (v_phys vw) X
      end.
    Definition reg_op_side (d : option nat) (o : reg_op A) : Prop :=
      match o with
      | RFit _ X y _ => forall nf, data_ok nf X y -> reg_side nf
      | RPartialFit _ X y _ => match d with None => forall nf, data_ok nf X y -> reg_side nf | Some _ => reg_hits g_ok U V a end
      | _ => True
      end.
    Definition reg_answer (d : option nat) (s : ta) (o : reg_op A) (r : reg_res) : Prop :=
      match o with
      | RFit _ X y _ =>
          (reg_fit_ok A vw a X y /\ r = RRStatus S_OK) \/ (~ reg_fit_ok A vw a X y /\ r = RRStatus S_VALUE_ERROR)
      | RPartialFit _ X y _ =>
          match d with
          | None => (reg_fit_ok A vw a X y /\ r = RRStatus S_OK) \/ (~ reg_fit_ok A vw a X y /\ r = RRStatus S_VALUE_ERROR)
          | Some nf =>
              (reg_more_ok A vw a nf X y /\ r = RRStatus S_OK) \/ (~ reg_more_ok A vw a nf X y /\ r = RRStatus S_VALUE_ERROR)
          end
      | RPredict1 _ x =>
          match d with
          | None => r = RRResp (Left S_NOT_FITTED_ERROR)
          | Some nf => (v_ok vw nf x /\ r = RRResp (Right (reg_response vw a nf s x))) \/
                       (~ v_ok vw nf x /\ r = RRResp (Left S_VALUE_ERROR))
          end
      | RPredict _ X =>
          match d with
          | None => r = RRResps (Left S_NOT_FITTED_ERROR)
          | Some nf => (batch_ok A vw nf X /\ r = RRResps (Right (reg_response vw a nf s <$> X))) \/
                       (~ batch_ok A vw nf X /\ r = RRResps (Left S_VALUE_ERROR))
          end
      end.
    Definition reg_frame (o : reg_op A) (r : reg_res) (e e' : est) : Prop :=
      match o with
      | RFit _ _ _ _ | RPartialFit _ _ _ _ => r = RRStatus S_OK \/ e' = e
      | _ => exists c, e' = with_cache S A c e /\ keep S (e_cache e) c
      end.
    Lemma reg_fit_step p0 d (e : est) X y epochs : reg_has a p0 -> reg_at p0 d e -> Forall (v_phys vw) X ->
      (forall nf, data_ok nf X y -> reg_side nf) ->
      wp U V (reg_fit S A e X y epochs) (fun '(st, e') =>
        (reg_fit_ok A vw a X y /\ st = S_OK /\ reg_at p0 (Some (features_of X)) e') \/
        (~ reg_fit_ok A vw a X y /\ st = S_VALUE_ERROR /\ e' = e)).
    Proof.
      intros Hh Hst HX H2. destruct (reg_at_has p0 d e Hh Hst) as (Hh' & Hws & Hpar).
      eapply wp_mono; [by apply (reg_fit_spec g_ok f_ok HR S HS A vw U V w N I E1n E1p E2 Lw a Ha HN Hw)|].
      intros [st e'] [(Hok & -> & nf & Hd & Ep & Hf & _)|(Hno & -> & ->)]; [left|by right].
      split; [done|]. split; [done|]. rewrite (features_of_ok _ _ _ Hd). split; [done|]. by rewrite Ep, Hpar.
    Qed.
    Lemma reg_step_spec p0 d (e : est) o : reg_has a p0 ->
      reg_at p0 d e -> reg_op_phys o -> reg_op_side d o ->
      wp U V (reg_step S A e o) (fun '(r, e') =>
        reg_at p0 (reg_dims_after d o r) e' /\ reg_answer d (e_ta e) o r /\ reg_frame o r e e').
    Proof.
      intros Hh Hst Hp Hs.
      destruct o as [X y epochs|X y epochs|x|X]; cbn [reg_op_phys reg_op_side reg_answer reg_frame] in *; unfold reg_step; apply wp_bind.
      - eapply wp_mono; [by eapply reg_fit_step|]. intros [st e'] [(Hok & -> & Hat)|(Hno & -> & ->)]; cbn [wp reg_dims_after]; auto 6.
      - unfold reg_partial_fit. destruct d as [nf|].
        + pose proof Hst as [Hf Ep].
          rewrite (reg_fitted_true _ _ _ _ _ _ _ _ _ _ _ _ Lw a Ha _ _ Hf).
          eapply wp_mono; [by apply (reg_online_checked_spec g_ok f_ok HR S HS A vw U V w N I E1n E1p E2 Lw a Ha HN e nf X y epochs Hp Hf)|].
          intros [st e'] [(Hok & -> & Ep' & Hf')|(Hno & -> & ->)]; cbn [wp reg_dims_after reg_at]; [|auto 6].
          split; [|by auto]. split; [done|congruence].
        + cbn [reg_at] in Hst. subst e. rewrite is_fitted_construct.
          eapply wp_mono; [by eapply (reg_fit_step p0 None)|]. intros [st e'] [(Hok & -> & Hat)|(Hno & -> & ->)]; cbn [wp reg_dims_after reg_at]; auto 6.
      - destruct d as [nf|]; [destruct Hst as [Hf Ep]|cbn [reg_at] in Hst; subst e].
        + destruct (reg_predict1_spec g_ok S HS A vw U V w N I E1n E1p E2 Lw a nf Ha e Hf x Hp) as [(? & c & -> & K)|(? & ->)];
            cbn [wp reg_dims_after reg_at].
          * split; [split; [by apply reg_keep_fitted|done]|]. split; [by left|by exists c].
          * split; [done|]. split; [by right|]. exists (e_cache e). by destruct e.
        + unfold reg_predict1. rewrite check_single_unfitted by done. cbn. split; [done|]. split; [done|]. by exists (cache0 S).
      - destruct d as [nf|]; [destruct Hst as [Hf Ep]|cbn [reg_at] in Hst; subst e].
        + destruct (reg_predict_spec g_ok S HS A vw U V w N I E1n E1p E2 Lw a nf Ha e Hf X Hp) as [(? & c & -> & K)|(? & ->)];
            cbn [wp reg_dims_after reg_at].
          * split; [split; [by apply reg_keep_fitted|done]|]. split; [by left|by exists c].
          * split; [done|]. split; [by right|]. exists (e_cache e). by destruct e.
        + unfold reg_predict. rewrite check_batch_unfitted by done. cbn. split; [done|]. split; [done|]. by exists (cache0 S).
    Qed.
  End Reg.
End Step.
