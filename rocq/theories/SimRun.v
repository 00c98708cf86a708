(** * Lockstep of whole histories; side-effect freedom of predictions; refitting; incremental training. *)
From Verif Require Export SimFit InvFacts.
From stdpp Require Import list.
Local Open Scope Z_scope.

Section Dims.
  Context {R : rnd} {A : algo R}.
  (** dimensions after more calls *)
  Definition clf_dims_from (d : option (nat * nat)) (os : list (clf_op A)) (rs : list clf_res) : option (nat * nat) :=
    foldl (fun d '(o, r) => clf_dims_after d o r) d (zip os rs).
  Definition reg_dims_from (d : option nat) (os : list (reg_op A)) (rs : list reg_res) : option nat :=
    foldl (fun d '(o, r) => reg_dims_after d o r) d (zip os rs).
  Lemma clf_dims_from_snoc d os rs (o : clf_op A) r : length rs = length os ->
    clf_dims_from d (os ++ [o]) (rs ++ [r]) = clf_dims_after (clf_dims_from d os rs) o r.
  Proof. intros E. unfold clf_dims_from. rewrite zip_with_app by done. by rewrite foldl_app. Qed.
  Lemma reg_dims_from_snoc d os rs (o : reg_op A) r : length rs = length os ->
    reg_dims_from d (os ++ [o]) (rs ++ [r]) = reg_dims_after (reg_dims_from d os rs) o r.
  Proof. intros E. unfold reg_dims_from. rewrite zip_with_app by done. by rewrite foldl_app. Qed.
End Dims.

(** every evaluate of the calls [os] on [e] (dimensions [d]) is within the contract of evaluate, which validates nothing:
    valid samples, enough targets. (On an estimator that was never fitted it throws.) *)
Definition evaluates_ok {R} (S : sch) (A : algo R) (vw : aview A) (d : option (nat * nat))
    (e : est (a_pol A) (eS S) (eG R) (eF R)) (os : list (clf_op A)) : Prop :=
  forall pre X y post rs e' L nf, os = pre ++ CEvaluate A X y :: post -> clf_run S A e pre = Ret (rs, e') ->
    clf_dims_from d pre rs = Some (L, nf) -> evaluate_ok A vw (Some (L, nf)) X y.

Section Run.
  Context {R : rnd} (g_ok : eG R -> Prop) (f_ok : eF R -> Prop) (HR : rnd_ok R g_ok f_ok).
  Context (S1 : sch) (HS1 : sch_ok S1) (S2 : sch) (HS2 : sch_ok S2).
  Context (A : algo R) (vw : aview A).
  Notation est1 := (est (a_pol A) (eS S1) (eG R) (eF R)).
  Notation est2 := (est (a_pol A) (eS S2) (eG R) (eF R)).
  Context (w N : Z) (I : nat -> nat -> nmatrix -> a_pol A -> Prop).
  Context (E1n : nat -> coin_tosser -> a_smp A -> nat -> amp A -> amp A -> Prop).
  Context (E1p : bool -> nat -> coin_tosser -> a_smp A -> nat -> amp A -> amp A -> Prop).
  Context (E2 : nat -> a_smp A -> nat -> amp A -> amp A -> Prop).
  Context (Lw : forall U V, laws A g_ok vw U V w N I E1n E1p E2).

  Lemma clf_run_sim a1 a2 p1 p2 d (e1 : est1) (e2 : est2) os :
    clf_created a1 p1 -> clf_created a2 p2 ->
    N = ca_states a1 -> w = width_of (ca_counting a1) (ca_states a1) ->
    clf_at g_ok f_ok S1 A True True I a1 p1 d e1 -> clf_at g_ok f_ok S2 A True True I a2 p2 d e2 -> esim S1 S2 A e1 e2 ->
    Forall (clf_op_phys A vw) os -> evaluates_ok S1 A vw d e1 os ->
    orel (fun r1 r2 => res_sim S1 S2 A r1 r2 /\
      clf_at g_ok f_ok S1 A True True I a1 p1 (clf_dims_from d os r1.1) r1.2 /\
      clf_at g_ok f_ok S2 A True True I a2 p2 (clf_dims_from d os r1.1) r2.2)
      (clf_run S1 A e1 os) (clf_run S2 A e2 os).
  Proof.
    intros [Ha1 Hh1 Hu1] [Ha2 Hh2 Hu2] HN Hw At1 At2 Hs.
    pose proof (clf_has_alike _ _ (proj1 Hs) a1 a2 (proj1 (clf_at_has _ _ S1 A _ _ _ a1 p1 d e1 Hh1 At1)) (proj1 (clf_at_has _ _ S2 A _ _ _ a2 p2 d e2 Hh2 At2))) as Haa.
    pose proof (alike_N N a1 a2 Haa HN) as HN2. pose proof (alike_w w a1 a2 Haa Hw) as Hw2.
    induction os as [|o os IH] using rev_ind; intros Hph Hev; [done|].
    apply Forall_app in Hph as [Hph [Ho _]%Forall_cons]. rewrite !clf_run_snoc.
    eapply orel_bind; [apply IH; [done|]|].
    { intros pre X y post rs e' L nf -> Hr Hd. eapply (Hev pre X y (post ++ [o])); [|done|done]. by rewrite <- app_assoc. }
    intros [rs1 f1] [rs2 f2] Er1 Er2 ((Ers & Hfs) & Bt1 & Bt2). cbn [fst snd] in *. subst rs2.
    eapply orel_bind.
    { eapply orel_mono_eq.
      - eapply (clf_step_sim g_ok f_ok HR S1 HS1 S2 HS2 A vw w N I E1n E1p E2 (Lw True True) a1 a2 Ha1 Ha2 Haa HN Hw p1 p2 (clf_dims_from d os rs1) f1 f2 o); try done.
        destruct o; try done. destruct (clf_dims_from d os rs1) as [[L nf]|] eqn:Ed; [|done].
        by eapply (Hev os X y [] rs1 f1).
      - intros r1 r2 Q1 Q2 H. exact (conj H (conj Q1 Q2)). }
    intros [r1 g1] [r2 g2] _ _ ((Er & Hgs) & Q1 & Q2). cbn [fst snd] in *. subst r2.
    pose proof (clf_step_spec g_ok f_ok HR S1 HS1 A vw True True w N I E1n E1p E2 (Lw True True) a1 Ha1 HN Hw p1 _ f1 o Hh1 Hu1 Bt1 Ho (clf_op_side_true _ _ _ _ _ _ _)) as W1.
    pose proof (clf_step_spec g_ok f_ok HR S2 HS2 A vw True True w N I E1n E1p E2 (Lw True True) a2 Ha2 HN2 Hw2 p2 _ f2 o Hh2 Hu2 Bt2 Ho (clf_op_side_true _ _ _ _ _ _ _)) as W2.
    rewrite Q1 in W1. rewrite Q2 in W2. cbn [wp] in W1, W2.
    cbn [orel fst snd]. rewrite clf_dims_from_snoc by (by eapply clf_run_len). split; [done|]. split; [apply W1|apply W2].
  Qed.
  Lemma reg_run_sim a1 a2 p1 p2 d (e1 : est1) (e2 : est2) os :
    reg_created a1 p1 -> reg_created a2 p2 ->
    N = ra_states a1 -> w = width_of (ra_counting a1) (ra_states a1) ->
    reg_at g_ok S1 A True True I a1 p1 d e1 -> reg_at g_ok S2 A True True I a2 p2 d e2 -> esim S1 S2 A e1 e2 ->
    Forall (reg_op_phys A vw) os ->
    orel (fun r1 r2 => res_sim S1 S2 A r1 r2 /\
      reg_at g_ok S1 A True True I a1 p1 (reg_dims_from d os r1.1) r1.2 /\
      reg_at g_ok S2 A True True I a2 p2 (reg_dims_from d os r1.1) r2.2)
      (reg_run S1 A e1 os) (reg_run S2 A e2 os).
  Proof.
    intros [Ha1 Hh1] [Ha2 Hh2] HN Hw At1 At2 Hs.
    pose proof (reg_has_alike _ _ (proj1 Hs) a1 a2 (proj1 (reg_at_has _ S1 A _ _ _ a1 p1 d e1 Hh1 At1)) (proj1 (reg_at_has _ S2 A _ _ _ a2 p2 d e2 Hh2 At2))) as Haa.
    pose proof (ralike_N N a1 a2 Haa HN) as HN2. pose proof (ralike_w w a1 a2 Haa Hw) as Hw2.
    induction os as [|o os IH] using rev_ind; intros Hph; [done|].
    apply Forall_app in Hph as [Hph [Ho _]%Forall_cons]. rewrite !reg_run_snoc.
    eapply orel_bind; [by apply IH|].
    intros [rs1 f1] [rs2 f2] Er1 Er2 ((Ers & Hfs) & Bt1 & Bt2). cbn [fst snd] in *. subst rs2.
    eapply orel_bind.
    { eapply orel_mono_eq.
      - eapply (reg_step_sim g_ok f_ok HR S1 HS1 S2 HS2 A vw w N I E1n E1p E2 (Lw True True) a1 a2 Ha1 Ha2 Haa HN Hw p1 p2 (reg_dims_from d os rs1) f1 f2 o); done.
      - intros r1 r2 Q1 Q2 H. exact (conj H (conj Q1 Q2)). }
    intros [r1 g1] [r2 g2] _ _ ((Er & Hgs) & Q1 & Q2). cbn [fst snd] in *. subst r2.
    pose proof (reg_step_spec g_ok f_ok HR S1 HS1 A vw True True w N I E1n E1p E2 (Lw True True) a1 Ha1 HN Hw p1 _ f1 o Hh1 Bt1 Ho (reg_op_side_true _ _ _ _ _ _ _)) as W1.
    pose proof (reg_step_spec g_ok f_ok HR S2 HS2 A vw True True w N I E1n E1p E2 (Lw True True) a2 Ha2 HN2 Hw2 p2 _ f2 o Hh2 Bt2 Ho (reg_op_side_true _ _ _ _ _ _ _)) as W2.
    rewrite Q1 in W1. rewrite Q2 in W2. cbn [wp] in W1, W2.
    cbn [orel fst snd]. rewrite reg_dims_from_snoc by (by eapply reg_run_len). split; [done|]. split; [apply W1|apply W2].
  Qed.
End Run.
