(** * Consequences of lockstep: the future of an estimator depends on its parameters, model and generators only;
      predictions leave no trace; thread count, tile size and schedules do not matter; refitting; incremental training. *)
From Verif Require Export SimRun.
From stdpp Require Import list.
Local Open Scope Z_scope.

(** equal automata, weights, polarity and generators; equal parameters apart from thread count and tile size *)
Definition same_estimator {P SS1 SS2 G F} (e1 : est P SS1 G F) (e2 : est P SS2 G F) : Prop :=
  same_but_jobs (e_params e1) (e_params e2) /\ e_ta e2 = e_ta e1 /\ e_igen e2 = e_igen e1 /\ e_fgen e2 = e_fgen e1.

Section Facts.
  Context {R : rnd} (g_ok : eG R -> Prop) (f_ok : eF R -> Prop) (HR : rnd_ok R g_ok f_ok).
  Context (A : algo R) (vw : aview A) (HA : tsetlini_algo R A vw).
  Notation estS S := (est (a_pol A) (eS S) (eG R) (eF R)).

  Lemma esim_same S1 S2 (e1 : estS S1) (e2 : estS S2) : esim S1 S2 A e1 e2 -> same_estimator e1 e2.
  Proof. intros (H1 & H2 & H3 & H4 & _). done. Qed.

  Lemma clf_run_cons S (e : estS S) o os : clf_run S A e (o :: os) =
    (let* '(r, e1) := clf_step S A e o in let* '(rs, e2) := clf_run S A e1 os in Ret (r :: rs, e2)).
  Proof.
    revert e o. induction os as [|o' os IH] using rev_ind; intros e o.
    - unfold clf_run. cbn. destruct (clf_step S A e o) as [[r e1]| | |]; done.
    - rewrite app_comm_cons, clf_run_snoc, IH. destruct (clf_step S A e o) as [[r e1]| | |]; cbn [obind]; try done.
      rewrite clf_run_snoc. destruct (clf_run S A e1 os) as [[rs e2]| | |]; cbn [obind]; try done.
      destruct (clf_step S A e2 o') as [[r' e3]| | |]; done.
  Qed.
  Lemma reg_run_cons S (e : estS S) o os : reg_run S A e (o :: os) =
    (let* '(r, e1) := reg_step S A e o in let* '(rs, e2) := reg_run S A e1 os in Ret (r :: rs, e2)).
  Proof.
    revert e o. induction os as [|o' os IH] using rev_ind; intros e o.
    - unfold reg_run. cbn. destruct (reg_step S A e o) as [[r e1]| | |]; done.
    - rewrite app_comm_cons, reg_run_snoc, IH. destruct (reg_step S A e o) as [[r e1]| | |]; cbn [obind]; try done.
      rewrite reg_run_snoc. destruct (reg_run S A e1 os) as [[rs e2]| | |]; cbn [obind]; try done.
      destruct (reg_step S A e2 o') as [[r' e3]| | |]; done.
  Qed.

  Section Two.
    Context (S1 : sch) (HS1 : sch_ok S1) (S2 : sch) (HS2 : sch_ok S2).
    Context (w N : Z) (I : nat -> nat -> nmatrix -> a_pol A -> Prop).
    Context (E1n : nat -> coin_tosser -> a_smp A -> nat -> amp A -> amp A -> Prop).
    Context (E1p : bool -> nat -> coin_tosser -> a_smp A -> nat -> amp A -> amp A -> Prop).
    Context (E2 : nat -> a_smp A -> nat -> amp A -> amp A -> Prop).
    Context (Lw : forall U V, laws A g_ok vw U V w N I E1n E1p E2).

    (** scratch contents are determined up to what nothing depends on *)
    Lemma clf_esim_of_same a1 a2 p1 p2 d1 d2 (e1 : estS S1) (e2 : estS S2) : clf_created a1 p1 -> clf_created a2 p2 ->
      clf_at g_ok f_ok S1 A True True I a1 p1 d1 e1 -> clf_at g_ok f_ok S2 A True True I a2 p2 d2 e2 ->
      same_estimator e1 e2 -> d1 = d2 /\ esim S1 S2 A e1 e2.
    Proof.
      intros [Ha1 Hh1 Hu1] [Ha2 Hh2 Hu2] At1 At2 (Hp & Ht & Hg & Hf).
      pose proof (pj_labels _ _ Hp) as EL. pose proof (pj_features _ _ Hp) as EF.
      destruct d1 as [[L1 nf1]|], d2 as [[L2 nf2]|].
      - destruct At1 as [(_ & Hd1 & Hc1) _], At2 as [(_ & Hd2 & Hc2) _].
        pose proof (clf_has_alike _ _ Hp a1 a2 (cd_has _ _ _ _ Hd1) (cd_has _ _ _ _ Hd2)) as Haa.
        destruct Hd1 as [B1 B2 B3 _ _], Hd2 as [D1 D2 D3 _ _].
        rewrite B2, D2 in EL. rewrite B3, D3 in EF. injection EL as EL. injection EF as EF.
        assert (L2 = L1) as -> by lia. assert (nf2 = nf1) as -> by lia. clear EL EF. split; [done|]. repeat (split; [done|]).
        destruct Hc1 as [_ _ (l1 & l2 & l3) Hct1 (ct0 & Q1 & R1) _ _], Hc2 as [_ _ (k1 & k2 & k3) Hct2 (ct0' & Q2 & R2) _ _]. cbn [fst snd] in *.
        rewrite Haa in Q2. cbn [ca_s ra_s] in Q2. rewrite Q1 in Q2. injection Q2 as <-.
        assert (clf_opl a2 = clf_opl a1) as Eo by (unfold clf_opl; by rewrite Haa). rewrite Eo in *.
        unfold cache_sim, ct_sim. split; [congruence|]. split; [congruence|]. split; [congruence|].
        unfold same_rate in *. destruct Hct1 as [[] _], Hct2 as [[] _], R1 as (? & ? & ?), R2 as (? & ? & ?). repeat split; congruence.
      - destruct At1 as [(_ & Hd1 & _) _]. cbn in At2. subst e2. cbn in EL. rewrite (cd_labels _ _ _ _ Hd1) in EL. by apply Hu2 in EL.
      - destruct At2 as [(_ & Hd2 & _) _]. cbn in At1. subst e1. cbn in EL. rewrite (cd_labels _ _ _ _ Hd2) in EL. symmetry in EL. by apply Hu1 in EL.
      - split; [done|]. cbn in At1, At2. subst e1 e2. by apply esim_construct.
    Qed.
    Lemma reg_esim_of_same a1 a2 p1 p2 d1 d2 (e1 : estS S1) (e2 : estS S2) : reg_created a1 p1 -> reg_created a2 p2 ->
      reg_at g_ok S1 A True True I a1 p1 d1 e1 -> reg_at g_ok S2 A True True I a2 p2 d2 e2 ->
      same_estimator e1 e2 -> d1 = d2 /\ esim S1 S2 A e1 e2.
    Proof.
      intros [Ha1 Hh1] [Ha2 Hh2] At1 At2 (Hp & Ht & Hg & Hf). specialize (Lw True True).
      pose proof (pj_features _ _ Hp) as EF.
      destruct d1 as [nf1|], d2 as [nf2|].
      - destruct At1 as [(_ & Hd1 & Hc1) _], At2 as [(_ & Hd2 & Hc2) _].
        pose proof (reg_has_alike _ _ Hp a1 a2 (rd_has _ _ _ Hd1) (rd_has _ _ _ Hd2)) as Haa.
        destruct Hd1 as [B1 B3], Hd2 as [D1 D3].
        rewrite B3, D3 in EF. injection EF as EF.
        assert (nf2 = nf1) as -> by lia. clear EF. split; [done|]. repeat (split; [done|]).
        destruct Hc1 as [_ _ (l1 & l2 & l3) Hct1 (ct0 & Q1 & R1) _], Hc2 as [_ _ (k1 & k2 & k3) Hct2 (ct0' & Q2 & R2) _]. cbn [fst snd] in *.
        rewrite Haa in Q2. cbn [ca_s ra_s] in Q2. rewrite Q1 in Q2. injection Q2 as <-.
        assert (reg_n a2 = reg_n a1) as Eo by (unfold reg_n; by rewrite Haa). rewrite Eo in *.
        unfold cache_sim, ct_sim. rewrite k2, k3, l2, l3. split; [done|]. split; [congruence|]. split; [done|].
        unfold same_rate in *. destruct Hct1 as [[] _], Hct2 as [[] _], R1 as (? & ? & ?), R2 as (? & ? & ?). repeat split; congruence.
      - destruct At1 as [Hf1 _]. cbn in At2. subst e2.
        pose proof (reg_is_fitted g_ok S1 A vw True True _ _ I E1n E1p E2 Lw a1 nf1 Ha1 e1 Hf1) as F. rewrite <- Ht in F. done.
      - destruct At2 as [Hf2 _]. cbn in At1. subst e1.
        pose proof (reg_is_fitted g_ok S2 A vw True True _ _ I E1n E1p E2 Lw a2 nf2 Ha2 e2 Hf2) as F. rewrite Ht in F. done.
      - split; [done|]. cbn in At1, At2. subst e1 e2. by apply esim_construct.
    Qed.
  End Two.

  Lemma alike_states p1 p2 a1 a2 : same_but_jobs p1 p2 -> clf_has a1 p1 -> clf_has a2 p2 ->
    ca_states a2 = ca_states a1 /\ ca_counting a2 = ca_counting a1.
  Proof. intros H H1 H2. rewrite (clf_has_alike _ _ H a1 a2 H1 H2). done. Qed.
  Lemma ralike_states p1 p2 a1 a2 : same_but_jobs p1 p2 -> reg_has a1 p1 -> reg_has a2 p2 ->
    ra_states a2 = ra_states a1 /\ ra_counting a2 = ra_counting a1.
  Proof. intros H H1 H2. rewrite (reg_has_alike _ _ H a1 a2 H1 H2). done. Qed.

  (** reachable parameters *)
  Lemma clf_reach_has S (HS : sch_ok S) a p os rs (e : estS S) : clf_created a p -> clf_history S A vw p os rs e -> clf_has a (e_params e).
  Proof.
    intros Hc Hh. destruct (clf_hist_laws g_ok f_ok HR A vw HA a (cc_valid _ _ Hc)) as (I & E1n & E1p & E2 & Lw).
    pose proof (clf_history_at g_ok f_ok HR S HS A vw _ _ I E1n E1p E2 Lw a p os rs e Hc eq_refl eq_refl Hh) as Hat.
    by eapply clf_at_has in Hat as (? & _); [|apply Hc].
  Qed.
  Lemma reg_reach_has S (HS : sch_ok S) a p os rs (e : estS S) : reg_created a p -> reg_history S A vw p os rs e -> reg_has a (e_params e).
  Proof.
    intros Hc Hh. destruct (reg_hist_laws g_ok f_ok HR A vw HA a (rc_valid _ _ Hc)) as (I & E1n & E1p & E2 & Lw).
    pose proof (reg_history_at g_ok f_ok HR S HS A vw _ _ I E1n E1p E2 Lw a p os rs e Hc eq_refl eq_refl Hh) as Hat.
    by eapply reg_at_has in Hat as (? & _); [|apply Hc].
  Qed.

  Definition same_outcome {RES SS1 SS2} (r1 : RES * est (a_pol A) SS1 (eG R) (eF R)) (r2 : RES * est (a_pol A) SS2 (eG R) (eF R)) : Prop :=
    r2.1 = r1.1 /\ same_estimator r1.2 r2.2.

  (** ** The future depends on parameters, model and generators only *)
  Theorem clf_same_future S1 S2 a1 a2 p1 p2 os1 rs1 (e1 : estS S1) os2 rs2 (e2 : estS S2) os :
    sch_ok S1 -> sch_ok S2 -> clf_created a1 p1 -> clf_created a2 p2 ->
    clf_history S1 A vw p1 os1 rs1 e1 -> clf_history S2 A vw p2 os2 rs2 e2 -> same_estimator e1 e2 ->
    Forall (clf_op_phys A vw) os -> evaluates_ok S1 A vw (clf_dims_of os1 rs1) e1 os ->
    orel same_outcome (clf_run S1 A e1 os) (clf_run S2 A e2 os).
  Proof.
    intros HS1 HS2 Hc1 Hc2 Hh1 Hh2 Hsame Hph Hev.
    pose proof (clf_reach_has S1 HS1 a1 p1 os1 rs1 e1 Hc1 Hh1) as Hp1. pose proof (clf_reach_has S2 HS2 a2 p2 os2 rs2 e2 Hc2 Hh2) as Hp2.
    destruct (alike_states _ _ a1 a2 (proj1 Hsame) Hp1 Hp2) as [Es Ec].
    destruct (clf_hist_laws g_ok f_ok HR A vw HA a1 (cc_valid _ _ Hc1)) as (I & E1n & E1p & E2 & Lw).
    pose proof (clf_history_at g_ok f_ok HR S1 HS1 A vw _ _ I E1n E1p E2 Lw a1 p1 os1 rs1 e1 Hc1 eq_refl eq_refl Hh1) as At1.
    pose proof (clf_history_at g_ok f_ok HR S2 HS2 A vw _ _ I E1n E1p E2 Lw a2 p2 os2 rs2 e2 Hc2 ltac:(congruence) ltac:(congruence) Hh2) as At2.
    edestruct (clf_esim_of_same S1 S2 0) as [Ed Hes]; [exact Hc1|exact Hc2|exact At1|exact At2|exact Hsame|].   rewrite <- Ed in At2.
    eapply orel_mono; [eapply (clf_run_sim g_ok f_ok HR S1 HS1 S2 HS2 A vw _ _ I E1n E1p E2 Lw a1 a2 p1 p2); try done|].
    intros r1 r2 ((E & H) & _). split; [done|]. by apply esim_same.
  Qed.
  Theorem reg_same_future S1 S2 a1 a2 p1 p2 os1 rs1 (e1 : estS S1) os2 rs2 (e2 : estS S2) os :
    sch_ok S1 -> sch_ok S2 -> reg_created a1 p1 -> reg_created a2 p2 ->
    reg_history S1 A vw p1 os1 rs1 e1 -> reg_history S2 A vw p2 os2 rs2 e2 -> same_estimator e1 e2 ->
    Forall (reg_op_phys A vw) os ->
    orel same_outcome (reg_run S1 A e1 os) (reg_run S2 A e2 os).
  Proof.
    intros HS1 HS2 Hc1 Hc2 Hh1 Hh2 Hsame Hph.
    pose proof (reg_reach_has S1 HS1 a1 p1 os1 rs1 e1 Hc1 Hh1) as Hp1. pose proof (reg_reach_has S2 HS2 a2 p2 os2 rs2 e2 Hc2 Hh2) as Hp2.
    destruct (ralike_states _ _ a1 a2 (proj1 Hsame) Hp1 Hp2) as [Es Ec].
    destruct (reg_hist_laws g_ok f_ok HR A vw HA a1 (rc_valid _ _ Hc1)) as (I & E1n & E1p & E2 & Lw).
    pose proof (reg_history_at g_ok f_ok HR S1 HS1 A vw _ _ I E1n E1p E2 Lw a1 p1 os1 rs1 e1 Hc1 eq_refl eq_refl Hh1) as At1.
    pose proof (reg_history_at g_ok f_ok HR S2 HS2 A vw _ _ I E1n E1p E2 Lw a2 p2 os2 rs2 e2 Hc2 ltac:(congruence) ltac:(congruence) Hh2) as At2.
    destruct (reg_esim_of_same S1 S2 _ _ I E1n E1p E2 Lw a1 a2 p1 p2 _ _ e1 e2 Hc1 Hc2 At1 At2 Hsame) as [Ed Hes]. rewrite <- Ed in At2.
    eapply orel_mono; [eapply (reg_run_sim g_ok f_ok HR S1 HS1 S2 HS2 A vw _ _ I E1n E1p E2 Lw a1 a2 p1 p2); try done|].
    intros r1 r2 ((E & H) & _). split; [done|]. by apply esim_same.
  Qed.

  (** ** C27 *)
  Lemma clf_history_nil S p : clf_history S A vw p [] [] (construct S A p). Proof. by split. Qed.
  Lemma reg_history_nil S p : reg_history S A vw p [] [] (construct S A p). Proof. by split. Qed.
  Theorem clf_schedule_free S1 S2 a1 a2 p1 p2 os : sch_ok S1 -> sch_ok S2 -> clf_created a1 p1 -> clf_created a2 p2 ->
    same_but_jobs p1 p2 -> Forall (clf_op_phys A vw) os -> evaluates_ok S1 A vw None (construct S1 A p1) os ->
    orel same_outcome (clf_run S1 A (construct S1 A p1) os) (clf_run S2 A (construct S2 A p2) os).
  Proof.
    intros. eapply (clf_same_future S1 S2 a1 a2 p1 p2 [] [] _ [] []); try done; try apply clf_history_nil. Qed.
  Theorem reg_schedule_free S1 S2 a1 a2 p1 p2 os : sch_ok S1 -> sch_ok S2 -> reg_created a1 p1 -> reg_created a2 p2 ->
    same_but_jobs p1 p2 -> Forall (reg_op_phys A vw) os ->
    orel same_outcome (reg_run S1 A (construct S1 A p1) os) (reg_run S2 A (construct S2 A p2) os).
  Proof.
    intros. eapply (reg_same_future S1 S2 a1 a2 p1 p2 [] [] _ [] []); try done; try apply reg_history_nil. Qed.

  (** ** C09: predictions leave no trace *)
  Definition clf_const (o : clf_op A) : Prop := match o with CFit _ _ _ _ _ | CPartialFit _ _ _ _ _ => False | _ => True end.
  Definition reg_const (o : reg_op A) : Prop := match o with RFit _ _ _ _ | RPartialFit _ _ _ _ => False | _ => True end.
  (** drop some of the const calls (and their results) from a list of calls *)
  Inductive fewer_reads {O RES} (const : O -> Prop) : list O -> list RES -> list O -> list RES -> Prop :=
  | fr_nil : fewer_reads const [] [] [] []
  | fr_keep o r os rs os' rs' : fewer_reads const os rs os' rs' -> fewer_reads const (o :: os) (r :: rs) (o :: os') (r :: rs')
  | fr_drop o r os rs os' rs' : const o -> fewer_reads const os rs os' rs' -> fewer_reads const (o :: os) (r :: rs) os' rs'.

  Section One.
    Context (S : sch) (HS : sch_ok S).
    Notation est := (estS S).
    Lemma cache_sim_refl (c : cache (eS S)) : cache_sim S S c c.
    Proof. unfold cache_sim, ct_sim, same_rate. done. Qed.
    Lemma esim_refl (e : est) : esim S S A e e.
    Proof. split; [done|]. repeat (split; [done|]). apply cache_sim_refl. Qed.

    Lemma clf_reads_dropped a p d (e e' : est) os rs ef os' rs' w N I E1n E1p E2 : (forall U V, laws A g_ok vw U V w N I E1n E1p E2) ->
      clf_created a p -> N = ca_states a -> w = width_of (ca_counting a) (ca_states a) ->
      clf_at g_ok f_ok S A True True I a p d e -> clf_at g_ok f_ok S A True True I a p d e' -> esim S S A e e' ->
      Forall (clf_op_phys A vw) os -> evaluates_ok S A vw d e os -> fewer_reads clf_const os rs os' rs' ->
      clf_run S A e os = Ret (rs, ef) ->
      exists ef' d', clf_run S A e' os' = Ret (rs', ef') /\ esim S S A ef ef' /\
        clf_at g_ok f_ok S A True True I a p d' ef /\ clf_at g_ok f_ok S A True True I a p d' ef'.
    Proof.
      intros Lw Hc HN Hw At At' Hs Hph Hev Hfr. pose proof Hc as [Ha Hh Hu].
      revert d e e' ef At At' Hs Hph Hev.
      induction Hfr as [|o r os rs os' rs' Hfr IH|o r os rs os' rs' Ho Hfr IH]; intros d e e' ef At At' Hs Hph Hev Hr.
      - injection Hr as <-. exists e', d. done.
      - apply Forall_cons in Hph as [Hpo Hph]. rewrite clf_run_cons in Hr. apply obind_ret_inv in Hr as ([r1 e1] & Estep & Hr).
        apply obind_ret_inv in Hr as ([rs1 e2] & Erun & [= <- <- <-]).
        pose proof (clf_step_spec g_ok f_ok HR S HS A vw True True w N I E1n E1p E2 (Lw True True) a Ha HN Hw p _ e o Hh Hu At Hpo (clf_op_side_true _ _ _ _ _ _ _)) as W1.
        pose proof (clf_step_spec g_ok f_ok HR S HS A vw True True w N I E1n E1p E2 (Lw True True) a Ha HN Hw p _ e' o Hh Hu At' Hpo (clf_op_side_true _ _ _ _ _ _ _)) as W2.
        pose proof (clf_step_sim g_ok f_ok HR S HS S HS A vw w N I E1n E1p E2 (Lw True True) a a Ha Ha ltac:(by destruct a) HN Hw p p d e e' o Hh Hh Hu At At' Hs Hpo) as Q.
        rewrite Estep in Q, W1. cbn [wp] in W1.
        assert (evaluate_scope A vw d o) as Hsc.
        { destruct o; try done. destruct d as [[L nf]|]; [|done]. by eapply (Hev [] X y os [] e). }
        specialize (Q Hsc). destruct (clf_step S A e' o) as [[r' e1']| | |] eqn:Es'; try done. destruct Q as [Er Q]. cbn [fst snd] in *. subst r'.
        cbn [wp] in W2.
        destruct (IH _ e1 e1' e2 (proj1 W1) (proj1 W2) Q Hph) as (ef' & d' & E' & H1 & H2 & H3); [|done|].
        { intros pre X y post rs2 f L nf -> Epre Ed. eapply (Hev (o :: pre) X y post (r1 :: rs2) f); [done| |exact Ed].
          rewrite clf_run_cons, Estep. cbn [obind]. rewrite Epre. done. }
        exists ef', d'. split; [|done]. rewrite clf_run_cons, Es'. cbn [obind]. rewrite E'. done.
      - apply Forall_cons in Hph as [Hpo Hph]. rewrite clf_run_cons in Hr. apply obind_ret_inv in Hr as ([r1 e1] & Estep & Hr).
        apply obind_ret_inv in Hr as ([rs1 e2] & Erun & [= <- <- <-]).
        pose proof (clf_step_spec g_ok f_ok HR S HS A vw True True w N I E1n E1p E2 (Lw True True) a Ha HN Hw p _ e o Hh Hu At Hpo (clf_op_side_true _ _ _ _ _ _ _)) as W1.
        rewrite Estep in W1. destruct W1 as (At1 & _ & Hfm).
        assert (clf_dims_after d o r1 = d) as Ed by (by destruct o). rewrite Ed in At1.
        assert (exists c, e1 = with_cache S A c e /\ keep S (e_cache e) c) as (c & -> & K) by (by destruct o).
        assert (esim S S A (with_cache S A c e) e') as Hs'.
        { destruct e'. apply (esim_keep S S A e _ c _ Hs K). done. }
        eapply IH; try done.
        intros pre X y post rs2 f L nf -> Epre Ed'. eapply (Hev (o :: pre) X y post (r1 :: rs2) f); [done| |].
        + rewrite clf_run_cons, Estep. cbn [obind]. rewrite Epre. done.
        + unfold clf_dims_from. cbn [zip zip_with foldl]. rewrite Ed. exact Ed'.
    Qed.
    Lemma reg_reads_dropped a p d (e e' : est) os rs ef os' rs' w N I E1n E1p E2 : (forall U V, laws A g_ok vw U V w N I E1n E1p E2) ->
      reg_created a p -> N = ra_states a -> w = width_of (ra_counting a) (ra_states a) ->
      reg_at g_ok S A True True I a p d e -> reg_at g_ok S A True True I a p d e' -> esim S S A e e' ->
      Forall (reg_op_phys A vw) os -> fewer_reads reg_const os rs os' rs' ->
      reg_run S A e os = Ret (rs, ef) ->
      exists ef' d', reg_run S A e' os' = Ret (rs', ef') /\ esim S S A ef ef' /\
        reg_at g_ok S A True True I a p d' ef /\ reg_at g_ok S A True True I a p d' ef'.
    Proof.
      intros Lw Hc HN Hw At At' Hs Hph Hfr. pose proof Hc as [Ha Hh].
      revert d e e' ef At At' Hs Hph.
      induction Hfr as [|o r os rs os' rs' Hfr IH|o r os rs os' rs' Ho Hfr IH]; intros d e e' ef At At' Hs Hph Hr.
      - injection Hr as <-. exists e', d. done.
      - apply Forall_cons in Hph as [Hpo Hph]. rewrite reg_run_cons in Hr. apply obind_ret_inv in Hr as ([r1 e1] & Estep & Hr).
        apply obind_ret_inv in Hr as ([rs1 e2] & Erun & [= <- <- <-]).
        pose proof (reg_step_spec g_ok f_ok HR S HS A vw True True w N I E1n E1p E2 (Lw True True) a Ha HN Hw p _ e o Hh At Hpo (reg_op_side_true _ _ _ _ _ _ _)) as W1.
        pose proof (reg_step_spec g_ok f_ok HR S HS A vw True True w N I E1n E1p E2 (Lw True True) a Ha HN Hw p _ e' o Hh At' Hpo (reg_op_side_true _ _ _ _ _ _ _)) as W2.
        pose proof (reg_step_sim g_ok f_ok HR S HS S HS A vw w N I E1n E1p E2 (Lw True True) a a Ha Ha ltac:(by destruct a) HN Hw p p d e e' o Hh Hh At At' Hs Hpo) as Q.
        rewrite Estep in Q, W1. cbn [wp] in W1.
        destruct (reg_step S A e' o) as [[r' e1']| | |] eqn:Es'; try done. destruct Q as [Er Q]. cbn [fst snd] in *. subst r'.
        cbn [wp] in W2.
        destruct (IH _ e1 e1' e2 (proj1 W1) (proj1 W2) Q Hph) as (ef' & d' & E' & H1 & H2 & H3); [done|].
        exists ef', d'. split; [|done]. rewrite reg_run_cons, Es'. cbn [obind]. rewrite E'. done.
      - apply Forall_cons in Hph as [Hpo Hph]. rewrite reg_run_cons in Hr. apply obind_ret_inv in Hr as ([r1 e1] & Estep & Hr).
        apply obind_ret_inv in Hr as ([rs1 e2] & Erun & [= <- <- <-]).
        pose proof (reg_step_spec g_ok f_ok HR S HS A vw True True w N I E1n E1p E2 (Lw True True) a Ha HN Hw p _ e o Hh At Hpo (reg_op_side_true _ _ _ _ _ _ _)) as W1.
        rewrite Estep in W1. destruct W1 as (At1 & _ & Hfm).
        assert (reg_dims_after d o r1 = d) as Ed by (by destruct o). rewrite Ed in At1.
        assert (exists c, e1 = with_cache S A c e /\ keep S (e_cache e) c) as (c & -> & K) by (by destruct o).
        assert (esim S S A (with_cache S A c e) e') as Hs'.
        { destruct e'. apply (esim_keep S S A e _ c _ Hs K). done. }
        eapply IH; try done.
    Qed.

    Definition equal_estimator (e1 e2 : est) : Prop :=
      e_params e2 = e_params e1 /\ e_ta e2 = e_ta e1 /\ e_igen e2 = e_igen e1 /\ e_fgen e2 = e_fgen e1.
    Lemma clf_at_params I a p d (e1 e2 : est) : clf_at g_ok f_ok S A True True I a p d e1 -> clf_at g_ok f_ok S A True True I a p d e2 ->
      e_params e2 = e_params e1.
    Proof. destruct d as [[L nf]|]; [intros [_ ->] [_ ->]; done|]. intros H1 H2. cbn in H1, H2. by subst. Qed.
    Lemma reg_at_params I a p d (e1 e2 : est) : reg_at g_ok S A True True I a p d e1 -> reg_at g_ok S A True True I a p d e2 ->
      e_params e2 = e_params e1.
    Proof. destruct d as [nf|]; [intros [_ ->] [_ ->]; done|]. intros H1 H2. cbn in H1, H2. by subst. Qed.

    (** any const calls may be removed from a history without changing the other results or the final estimator *)
    Theorem clf_reads_invisible a p os rs (e : est) os' rs' : clf_created a p -> clf_history S A vw p os rs e ->
      evaluates_ok S A vw None (construct S A p) os -> fewer_reads clf_const os rs os' rs' ->
      exists e', clf_history S A vw p os' rs' e' /\ equal_estimator e e'.
    Proof.
      intros Hc [Hph Hr] Hev Hfr. destruct (clf_hist_laws g_ok f_ok HR A vw HA a (cc_valid _ _ Hc)) as (I & E1n & E1p & E2 & Lw).
      destruct (clf_reads_dropped a p None (construct S A p) (construct S A p) os rs e os' rs' _ _ I E1n E1p E2 Lw Hc eq_refl eq_refl eq_refl eq_refl (esim_refl _) Hph Hev Hfr Hr)
        as (e' & d' & Hr' & Hs & At & At'). exists e'. split.
      - split; [|done]. clear - Hph Hfr. induction Hfr; [done| |]; apply Forall_cons in Hph as [??]; auto.
      - pose proof (clf_at_params I a p d' e e' At At') as Ep. destruct Hs as (_ & ? & ? & ? & _). done.
    Qed.
    Theorem reg_reads_invisible a p os rs (e : est) os' rs' : reg_created a p -> reg_history S A vw p os rs e ->
      fewer_reads reg_const os rs os' rs' ->
      exists e', reg_history S A vw p os' rs' e' /\ equal_estimator e e'.
    Proof.
      intros Hc [Hph Hr] Hfr. destruct (reg_hist_laws g_ok f_ok HR A vw HA a (rc_valid _ _ Hc)) as (I & E1n & E1p & E2 & Lw).
      destruct (reg_reads_dropped a p None (construct S A p) (construct S A p) os rs e os' rs' _ _ I E1n E1p E2 Lw Hc eq_refl eq_refl eq_refl eq_refl (esim_refl _) Hph Hfr Hr)
        as (e' & d' & Hr' & Hs & At & At'). exists e'. split.
      - split; [|done]. clear - Hph Hfr. induction Hfr; [done| |]; apply Forall_cons in Hph as [??]; auto.
      - pose proof (reg_at_params I a p d' e e' At At') as Ep. destruct Hs as (_ & ? & ? & ? & _). done.
    Qed.
    (** one const call changes neither parameters, model nor generators *)
    Theorem clf_read_frame a p os rs (e : est) o r e' : clf_created a p -> clf_history S A vw p os rs e -> clf_op_phys A vw o ->
      clf_const o -> clf_step S A e o = Ret (r, e') -> equal_estimator e e'.
    Proof.
      intros Hc Hh Hp Ho E. destruct (clf_answers g_ok f_ok HR S HS A vw HA a p os rs e o r e' Hc Hh Hp E) as [_ Hf].
      assert (exists c, e' = with_cache S A c e) as (c & ->) by (destruct o; try done; destruct Hf as (c & -> & _); eauto). done.
    Qed.
    Theorem reg_read_frame a p os rs (e : est) o r e' : reg_created a p -> reg_history S A vw p os rs e -> reg_op_phys A vw o ->
      reg_const o -> reg_step S A e o = Ret (r, e') -> equal_estimator e e'.
    Proof.
      intros Hc Hh Hp Ho E. destruct (reg_answers g_ok f_ok HR S HS A vw HA a p os rs e o r e' Hc Hh Hp E) as [_ Hf].
      assert (exists c, e' = with_cache S A c e) as (c & ->) by (destruct o; try done; destruct Hf as (c & -> & _); eauto). done.
    Qed.

    (** ** C23 *)
    Definition fit_same (e : est) (r1 r2 : status * est) : Prop :=
      r2.1 = r1.1 /\ (r1.1 = S_OK /\ equal_estimator r1.2 r2.2 \/ r1.1 <> S_OK /\ r1.2 = e).
    Theorem clf_refit a p os rs (e : est) X y ml epochs : clf_created a p -> ca_weighted a = false ->
      clf_history S A vw p os rs e -> Forall (v_phys vw) X ->
      orel (fit_same e) (clf_fit S A e X y ml epochs) (clf_fit S A (construct S A p) X y ml epochs).
    Proof.
      intros Hc Hnw Hh HX. pose proof Hc as [Ha Hha Hu].
      destruct (clf_hist_laws g_ok f_ok HR A vw HA a (cc_valid _ _ Hc)) as (I & E1n & E1p & E2 & Lw).
      pose proof (clf_history_at g_ok f_ok HR S HS A vw _ _ I E1n E1p E2 Lw a p os rs e Hc eq_refl eq_refl Hh) as Hat.
      destruct (clf_at_has _ _ S A _ _ _ a p _ e Hha Hat) as (B1 & B2 & B3).
      pose proof (clf_fit_step g_ok f_ok HR S HS A vw True True _ _ I E1n E1p E2 (Lw True True) a Ha eq_refl eq_refl p _ e X y ml epochs Hha Hat HX) as W1.
      pose proof (clf_fit_step g_ok f_ok HR S HS A vw True True _ _ I E1n E1p E2 (Lw True True) a Ha eq_refl eq_refl p None (construct S A p) X y ml epochs Hha eq_refl HX) as W2.
      eapply orel_mono_eq; [eapply (clf_fit_sim g_ok f_ok HR S HS S HS A vw _ _ I E1n E1p E2 (Lw True True) a a Ha Ha ltac:(by destruct a) eq_refl eq_refl); try done|].
      - cbn. intros L nf. by rewrite B3.
      - unfold weights_pre in B2. rewrite Hnw in B2. rewrite B2. done.
      - intros [st1 f1] [st2 f2] Q1 Q2 [Es H]. cbn [fst snd] in *. subst st2. split; [done|]. cbn [fst snd].
        destruct H as [[-> H]|(H & -> & _)]; [left|right; done]. split; [done|].
        rewrite Q1 in W1. rewrite Q2 in W2. cbn [wp] in W1, W2.
        destruct W1 as [(_ & _ & At1)|(_ & ? & _)]; [split; [by right|intros; apply clf_side_true]| |done].
        destruct W2 as [(_ & _ & At2)|(_ & ? & _)]; [split; [by right|intros; apply clf_side_true]| |done].
        pose proof (clf_at_params I a p _ f1 f2 At1 At2) as Ep. destruct H as (_ & ? & ? & ? & _). done.
    Qed.
    Theorem reg_refit a p os rs (e : est) X y epochs : reg_created a p -> ra_weighted a = false ->
      reg_history S A vw p os rs e -> Forall (v_phys vw) X ->
      orel (fit_same e) (reg_fit S A e X y epochs) (reg_fit S A (construct S A p) X y epochs).
    Proof.
      intros Hc Hnw Hh HX. pose proof Hc as [Ha Hha].
      destruct (reg_hist_laws g_ok f_ok HR A vw HA a (rc_valid _ _ Hc)) as (I & E1n & E1p & E2 & Lw).
      pose proof (reg_history_at g_ok f_ok HR S HS A vw _ _ I E1n E1p E2 Lw a p os rs e Hc eq_refl eq_refl Hh) as Hat.
      destruct (reg_at_has _ S A _ _ _ a p _ e Hha Hat) as (B1 & B2 & B3).
      pose proof (reg_fit_step g_ok f_ok HR S HS A vw True True _ _ I E1n E1p E2 (Lw True True) a Ha eq_refl eq_refl p _ e X y epochs Hha Hat HX) as W1.
      pose proof (reg_fit_step g_ok f_ok HR S HS A vw True True _ _ I E1n E1p E2 (Lw True True) a Ha eq_refl eq_refl p None (construct S A p) X y epochs Hha eq_refl HX) as W2.
      eapply orel_mono_eq; [eapply (reg_fit_sim g_ok f_ok HR S HS S HS A vw _ _ I E1n E1p E2 (Lw True True) a a Ha Ha ltac:(by destruct a) eq_refl eq_refl); try done|].
      - cbn. intros nf. by rewrite B3.
      - unfold weights_pre in B2. rewrite Hnw in B2. rewrite B2. done.
      - intros [st1 f1] [st2 f2] Q1 Q2 [Es H]. cbn [fst snd] in *. subst st2. split; [done|]. cbn [fst snd].
        destruct H as [[-> H]|(H & -> & _)]; [left|right; done]. split; [done|].
        rewrite Q1 in W1. rewrite Q2 in W2. cbn [wp] in W1, W2.
        destruct W1 as [(_ & _ & At1)|(_ & ? & _)]; [intros; apply reg_side_true| |done].
        destruct W2 as [(_ & _ & At2)|(_ & ? & _)]; [intros; apply reg_side_true| |done].
        pose proof (reg_at_params I a p _ f1 f2 At1 At2) as Ep. destruct H as (_ & ? & ? & ? & _). done.
    Qed.

    (** ** C26 *)
    Theorem clf_first_partial_fit a p os rs (e : est) X y ml epochs : clf_created a p -> clf_history S A vw p os rs e ->
      CRStatus S_OK ∉ rs -> clf_partial_fit S A e X y ml epochs = clf_fit S A e X y ml epochs.
    Proof.
      intros Hc Hh Hn. apply (clf_dims_none S A vw p os rs e Hh) in Hn.
      destruct (clf_hist_laws g_ok f_ok HR A vw HA a (cc_valid _ _ Hc)) as (I & E1n & E1p & E2 & Lw).
      pose proof (clf_history_at g_ok f_ok HR S HS A vw _ _ I E1n E1p E2 Lw a p os rs e Hc eq_refl eq_refl Hh) as Hat.
      rewrite Hn in Hat. cbn in Hat. subst e. unfold clf_partial_fit. rewrite is_fitted_construct. done.
    Qed.
    Theorem reg_first_partial_fit a p os rs (e : est) X y epochs : reg_created a p -> reg_history S A vw p os rs e ->
      RRStatus S_OK ∉ rs -> reg_partial_fit S A e X y epochs = reg_fit S A e X y epochs.
    Proof.
      intros Hc Hh Hn. apply (reg_dims_none S A vw p os rs e Hh) in Hn.
      destruct (reg_hist_laws g_ok f_ok HR A vw HA a (rc_valid _ _ Hc)) as (I & E1n & E1p & E2 & Lw).
      pose proof (reg_history_at g_ok f_ok HR S HS A vw _ _ I E1n E1p E2 Lw a p os rs e Hc eq_refl eq_refl Hh) as Hat.
      rewrite Hn in Hat. cbn in Hat. subst e. unfold reg_partial_fit. rewrite is_fitted_construct. done.
    Qed.
  End One.
End Facts.
