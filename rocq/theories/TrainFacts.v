(** * Training calls: incremental training, reproducibility, visiting order, the effect of one update. *)
From Verif Require Export SimFacts.
From stdpp Require Import list.
Local Open Scope Z_scope.

Lemma ofold_const {I J St} (l : list I) (l' : list J) (s : St) f : length l = length l' ->
  ofold l s (fun _ => f) = ofold l' s (fun _ => f).
Proof.
  revert l' s. induction l as [|i l IH]; intros [|j l'] s E; try done. cbn. destruct (f s); cbn; auto.
Qed.
Lemma ofor_const_split {St} a b (s : St) f :
  ofor 0 (a + b) s (fun _ => f) = (let* s1 := ofor 0 a s (fun _ => f) in ofor 0 b s1 (fun _ => f)).
Proof.
  unfold ofor. rewrite seq_app, ofold_app. cbn. destruct (ofold (seq 0 a) s _) as [s1| | |]; cbn; try done.
  apply ofold_const. by rewrite !seq_length.
Qed.

Section Train.
  Context {R : rnd} (g_ok : eG R -> Prop) (f_ok : eF R -> Prop) (HR : rnd_ok R g_ok f_ok).
  Context (S : sch) (HS : sch_ok S).
  Context (A : algo R) (vw : aview A) (HA : tsetlini_algo R A vw).
  Notation est := (est (a_pol A) (eS S) (eG R) (eF R)).

  (** ** C25 *)
  Lemma clf_online_split (e : est) X y n m : clf_fit_online S A e X y (n + m) =
    (let* '(_, e1) := clf_fit_online S A e X y n in clf_fit_online S A e1 X y m).
  Proof.
    unfold clf_fit_online.
    repeat match goal with |- obind ?o _ = _ =>
      lazymatch o with context[ofor] => fail | _ => destruct o eqn:?; cbn [obind]; try done end end.
    rewrite ofor_const_split. destruct (ofor 0 n _ _) as [[[[g f] s] c]| | |]; cbn [obind e_params e_igen e_fgen e_ta e_cache]; try done.
    repeat match goal with H : ?o = Ret _ |- context[obind ?o _] => rewrite H; cbn [obind] end. done.
  Qed.
  Lemma reg_online_split (e : est) X y n m : reg_fit_online S A e X y (n + m) =
    (let* '(_, e1) := reg_fit_online S A e X y n in reg_fit_online S A e1 X y m).
  Proof.
    unfold reg_fit_online.
    repeat match goal with |- obind ?o _ = _ =>
      lazymatch o with context[ofor] => fail | _ => destruct o eqn:?; cbn [obind]; try done end end.
    rewrite ofor_const_split. destruct (ofor 0 n _ _) as [[[g s] c]| | |]; cbn [obind e_params e_igen e_fgen e_ta e_cache]; try done.
    repeat match goal with H : ?o = Ret _ |- context[obind ?o _] => rewrite H; cbn [obind] end. done.
  Qed.

  (** accepted data goes straight to the training loop *)
  Lemma clf_checked_online g_ok' f_ok' U V I a (e : est) L nf X y ml n :
    (exists w N E1n E1p E2, laws A g_ok vw U V w N I E1n E1p E2) -> Forall (v_phys vw) X ->
    clf_fitted g_ok' f_ok' S A U V I a L nf e -> clf_more_ok A vw L nf X y ->
    clf_fit_online_checked S A e X y ml n = clf_fit_online S A e X y n.
  Proof.
    intros (w & N & E1n & E1p & E2 & Lw) HX He [Hd Hy]. unfold clf_fit_online_checked.
    destruct (check_X_y_spec _ _ _ _ _ _ _ _ _ _ _ Lw X y HX) as [(nf' & Hd' & Ec & Ef)|[H _]]; [|destruct (H _ Hd)].
    assert (nf' = nf) as -> by (eapply data_ok_nf; eauto).
    rewrite Ec. cbn [obind]. rewrite decide_False by (intros H; by apply H).
    destruct He as (Hva & Hdim & _). destruct Hdim.
    unfold check_X. rewrite cd_features. cbn [obind]. rewrite Ef. cbn [obind]. rewrite Z.eqb_refl.
    rewrite decide_False by (intros H; by apply H). rewrite cd_labels. cbn [obind].
    assert (y <> []) as Hn. { destruct Hd as [[Hn _] El]. destruct X; [done|]. by destruct y. }
    assert (1 <= L)%nat. { destruct y as [|v y]; [done|]. apply Forall_cons in Hy as [? _]. lia. }
    destruct (clf_opl_facts a Hva) as (Ec4 & _ & _ & ?).
    rewrite ci32_ret by (unfold int_min, int_max in *; nia). cbn [obind].
    destruct (check_labels_max_spec y (Z.of_nat L - 1) Hn) as [[Hq Eq]|[Hq Eq]]; rewrite Eq; cbn [obind].
    2:{ destruct Hq. eapply Forall_impl; [exact Hy|]. intros; cbn in *; lia. }
    by rewrite decide_False by (intros H'; by apply H').
  Qed.
  Lemma reg_checked_online g_ok' U V I a (e : est) nf X y n :
    (exists w N E1n E1p E2, laws A g_ok vw U V w N I E1n E1p E2) -> Forall (v_phys vw) X ->
    reg_fitted g_ok' S A U V I a nf e -> reg_more_ok A vw a nf X y ->
    reg_fit_online_checked S A e X y n = reg_fit_online S A e X y n.
  Proof.
    intros (w & N & E1n & E1p & E2 & Lw) HX He [Hd Hy]. unfold reg_fit_online_checked.
    destruct (check_X_y_spec _ _ _ _ _ _ _ _ _ _ _ Lw X y HX) as [(nf' & Hd' & Ec & Ef)|[H _]]; [|destruct (H _ Hd)].
    assert (nf' = nf) as -> by (eapply data_ok_nf; eauto).
    rewrite Ec. cbn [obind]. rewrite decide_False by (intros H; by apply H).
    destruct He as (Hva & Hdim & _). destruct Hdim as [[] ?].
    unfold check_X. rewrite rd_features. cbn [obind]. rewrite Ef. cbn [obind]. rewrite Z.eqb_refl.
    rewrite decide_False by (intros H; by apply H). rewrite rh_threshold. cbn [obind].
    destruct (check_response_spec a y) as [[_ E]|[H _]]; [|done]. rewrite E.
    by rewrite decide_False by (intros H'; by apply H').
  Qed.

  Ltac peel := repeat match goal with
    | |- context[obind ?o _] => lazymatch o with context[obind] => fail | _ => destruct o eqn:?; cbn [obind]; try done end
    | |- context[if decide ?P then _ else _] => destruct (decide P); try done end.
  (** a fit that was accepted initialises and then trains, whatever the number of epochs *)
  Lemma clf_fit_split (e : est) X y ml n e1 : clf_fit S A e X y ml n = Ret (S_OK, e1) ->
    exists e0, forall k, clf_fit S A e X y ml k = clf_fit_online S A e0 X y k.
  Proof.
    unfold clf_fit. destruct (check_X_y A X y) as [st| | |]; cbn [obind]; try done. case_decide; [by intros [= -> ?]|].
    destruct (Estimator.list_max y) as [hi| | |]; cbn [obind]; try done. destruct (ci32 (hi + 1)); cbn [obind]; try done.
    destruct (check_labels y) as [st'| | |]; cbn [obind]; try done. case_decide; [by intros [= -> ?]|].
    destruct (front_size A X) as [nf| | |]; cbn [obind]; try done. destruct (ci32 (Z.of_nat nf)); cbn [obind]; try done.
    destruct (clf_initialize _ _ _) as [e0| | |]; cbn [obind]; try done. intros _. by exists e0.
  Qed.
  Lemma reg_fit_split (e : est) X y n e1 : reg_fit S A e X y n = Ret (S_OK, e1) ->
    exists e0, forall k, reg_fit S A e X y k = reg_fit_online S A e0 X y k.
  Proof.
    unfold reg_fit. destruct (check_X_y A X y) as [st| | |]; cbn [obind]; try done. case_decide; [by intros [= -> ?]|].
    destruct (P_threshold _) as [T| | |]; cbn [obind]; try done. case_decide; [intros [= Hs _]; congruence|].
    destruct (front_size A X) as [nf| | |]; cbn [obind]; try done. destruct (ci32 (Z.of_nat nf)); cbn [obind]; try done.
    destruct (reg_initialize _ _ _) as [e0| | |]; cbn [obind]; try done. intros _. by exists e0.
  Qed.

  Theorem clf_incremental a p os rs (e e1 : est) X y ml ml' n m : clf_created a p -> clf_history S A vw p os rs e ->
    Forall (v_phys vw) X -> clf_fit S A e X y ml n = Ret (S_OK, e1) ->
    clf_partial_fit S A e1 X y ml' m = clf_fit S A e X y ml (n + m).
  Proof.
    intros Hc Hh HX E1. pose proof Hc as [Ha Hha Hu].
    destruct (clf_hist_laws g_ok f_ok HR A vw HA a Ha) as (I & E1n & E1p & E2 & Lw).
    pose proof (clf_history_at g_ok f_ok HR S HS A vw _ _ I E1n E1p E2 Lw a p os rs e Hc eq_refl eq_refl Hh) as Hat.
    destruct (clf_at_has _ _ S A _ _ _ a p _ e Hha Hat) as (B1 & B2 & B3).
    pose proof (clf_fit_spec g_ok f_ok HR S HS A vw True True _ _ I E1n E1p E2 (Lw True True) a Ha eq_refl eq_refl e X y ml n HX B1 B2
      (or_intror Logic.I) (fun nf _ _ => clf_side_true g_ok A vw _ a _ nf)) as W.
    rewrite E1 in W. cbn [wp] in W. destruct W as [(Hok & _ & nf & L & Hd & HL & _ & Hf & _)|(_ & ? & _)]; [|done].
    destruct (clf_fit_split _ _ _ _ _ _ E1) as (e0 & He0). rewrite He0, clf_online_split. rewrite He0 in E1. rewrite E1. cbn [obind].
    unfold clf_partial_fit. rewrite (clf_fitted_true g_ok f_ok S A vw True True _ _ I E1n E1p E2 (Lw True True) a Ha e1 L nf Hf).
    eapply clf_checked_online; eauto 10.
    split; [done|]. destruct Hok as [_ Hy]. destruct (max_label_spec y Hy) as (? & Hm & _).
    rewrite Forall_forall in *. intros v Hv. specialize (Hy v Hv). specialize (Hm v Hv). cbn in *. unfold n_labels in HL. lia.
  Qed.
  Theorem reg_incremental a p os rs (e e1 : est) X y n m : reg_created a p -> reg_history S A vw p os rs e ->
    Forall (v_phys vw) X -> reg_fit S A e X y n = Ret (S_OK, e1) ->
    reg_partial_fit S A e1 X y m = reg_fit S A e X y (n + m).
  Proof.
    intros Hc Hh HX E1. pose proof Hc as [Ha Hha].
    destruct (reg_hist_laws g_ok f_ok HR A vw HA a Ha) as (I & E1n & E1p & E2 & Lw).
    pose proof (reg_history_at g_ok f_ok HR S HS A vw _ _ I E1n E1p E2 Lw a p os rs e Hc eq_refl eq_refl Hh) as Hat.
    destruct (reg_at_has _ S A _ _ _ a p _ e Hha Hat) as (B1 & B2 & B3).
    pose proof (reg_fit_spec g_ok f_ok HR S HS A vw True True _ _ I E1n E1p E2 (Lw True True) a Ha eq_refl eq_refl e X y n HX B1 B2
      (fun nf _ => reg_side_true g_ok A vw _ a nf)) as W.
    rewrite E1 in W. cbn [wp] in W. destruct W as [(Hok & _ & nf & Hd & _ & Hf & _)|(_ & ? & _)]; [|done].
    destruct (reg_fit_split _ _ _ _ _ E1) as (e0 & He0). rewrite He0, reg_online_split. rewrite He0 in E1. rewrite E1. cbn [obind].
    unfold reg_partial_fit. rewrite (reg_fitted_true g_ok S A vw True True _ _ I E1n E1p E2 (Lw True True) a Ha e1 nf Hf).
    eapply reg_checked_online; eauto 10. split; [done|]. by destruct Hok.
  Qed.
End Train.
