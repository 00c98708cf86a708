(** * Settings that do not influence what is learnt: how automata are stored, and weights that cannot grow. *)
From Verif Require Export WideRun OneStep.
From stdpp Require Import list.
Local Open Scope Z_scope.

(** ** Specification *)
(** the same classifier arguments but for the counting type, the number of jobs, the tile size and verbosity *)
Record clf_same_but_storage (a1 a2 : clf_args) : Prop := {
  cb_clauses : ca_clauses a2 = ca_clauses a1; cb_states : ca_states a2 = ca_states a1; cb_s : ca_s a2 = ca_s a1;
  cb_threshold : ca_threshold a2 = ca_threshold a1; cb_weighted : ca_weighted a2 = ca_weighted a1;
  cb_max_weight : ca_max_weight a2 = ca_max_weight a1; cb_boost : ca_boost a2 = ca_boost a1; cb_seed : ca_seed a2 = ca_seed a1 }.
Record reg_same_but_storage (a1 a2 : reg_args) : Prop := {
  rb_clauses : ra_clauses a2 = ra_clauses a1; rb_states : ra_states a2 = ra_states a1; rb_s : ra_s a2 = ra_s a1;
  rb_threshold : ra_threshold a2 = ra_threshold a1; rb_weighted : ra_weighted a2 = ra_weighted a1;
  rb_max_weight : ra_max_weight a2 = ra_max_weight a1; rb_boost : ra_boost a2 = ra_boost a1; rb_seed : ra_seed a2 = ra_seed a1;
  rb_loss : ra_loss a2 = ra_loss a1; rb_C1 : ra_C1 a2 = ra_C1 a1; rb_box : ra_box_muller a2 = ra_box_muller a1 }.
(** ... but for the weighting as well *)
Record clf_same_but_weighting (a1 a2 : clf_args) : Prop := {
  cv_clauses : ca_clauses a2 = ca_clauses a1; cv_states : ca_states a2 = ca_states a1; cv_s : ca_s a2 = ca_s a1;
  cv_threshold : ca_threshold a2 = ca_threshold a1; cv_boost : ca_boost a2 = ca_boost a1; cv_seed : ca_seed a2 = ca_seed a1 }.
Record reg_same_but_weighting (a1 a2 : reg_args) : Prop := {
  rv_clauses : ra_clauses a2 = ra_clauses a1; rv_states : ra_states a2 = ra_states a1; rv_s : ra_s a2 = ra_s a1;
  rv_threshold : ra_threshold a2 = ra_threshold a1; rv_boost : ra_boost a2 = ra_boost a1; rv_seed : ra_seed a2 = ra_seed a1;
  rv_loss : ra_loss a2 = ra_loss a1; rv_C1 : ra_C1 a2 = ra_C1 a1; rv_box : ra_box_muller a2 = ra_box_muller a1 }.
(** weights that stay trivial: none are kept, or none can grow *)
Definition weights_trivial (weighted : bool) (max_weight : Z) : Prop := weighted = false \/ max_weight = 1.

(** the automata of two estimators hold the same numbers, [rows] of [cols] *)
Definition same_automata {R} {A : algo R} (vw : aview A) (rows cols : nat) (s1 s2 : tastate (a_pol A)) : Prop :=
  forall r c, (r < rows)%nat -> (c < cols)%nat ->
    v_cell vw (ta_matrix s2) (ta_pol s2) r c = v_cell vw (ta_matrix s1) (ta_pol s1) r c.

(** ** Facts *)
Lemma wide_instances {R} g_ok f_ok (HR : rnd_ok R g_ok f_ok) N c1 c2 A vw :
  trains_well R N A vw -> counting_known c1 -> counting_known c2 -> 1 <= N <= int_max ->
  exists I1 I2 E1n E1p E2, laws A g_ok vw True True (width_of c1 N) N I1 E1n E1p E2 /\ laws A g_ok vw True True (width_of c2 N) N I2 E1n E1p E2 /\
    wide_laws A g_ok vw (width_of c1 N) (width_of c2 N) N I1 I2.
Proof.
  intros Hw Hc1 Hc2 HN. destruct (wide_enough c1 N Hc1 HN) as [W1 W2]. destruct (wide_enough c2 N Hc2 HN) as [W3 W4].
  destruct Hw as [|H2].
  - eexists _, _, _, _, _. split; [by apply (classic_laws R g_ok f_ok HR)|]. split; [by apply (classic_laws R g_ok f_ok HR)|].
    by apply (classic_wide R g_ok f_ok HR).
  - eexists _, _, _, _, _. split; [apply (bitwise_laws R g_ok f_ok HR); [done|lia]|]. split; [apply (bitwise_laws R g_ok f_ok HR); [done|lia]|].
    apply (bitwise_wide R g_ok f_ok HR); try done; lia.
Qed.

Section Facts.
  Context {R : rnd} (g_ok : eG R -> Prop) (f_ok : eF R -> Prop) (HR : rnd_ok R g_ok f_ok).
  Context (S1 : sch) (HS1 : sch_ok S1) (S2 : sch) (HS2 : sch_ok S2) (A : algo R) (vw : aview A).

  Lemma clf_wide_history a1 a2 p1 p2 os rs1 rs2 e1 e2 : trains_well R (ca_states a1) A vw ->
    clf_created a1 p1 -> clf_created a2 p2 -> clf_wide a1 a2 ->
    clf_history S1 A vw p1 os rs1 e1 -> clf_history S2 A vw p2 os rs2 e2 -> evaluates_ok S1 A vw None (construct S1 A p1) os ->
    rs2 = rs1 /\ (forall L nf, clf_dims_of os rs1 = Some (L, nf) ->
      same_automata vw (2 * (L * clf_opl a1)) nf (e_ta e1) (e_ta e2) /\ weights_alike a1 a2 (ta_weights (e_ta e1)) (ta_weights (e_ta e2)) /\
      e_igen e2 = e_igen e1 /\ e_fgen e2 = e_fgen e1).
  Proof using HR HS1 HS2.
    intros Hw [Ha1 Hh1 Hu1] [Ha2 Hh2 Hu2] Haa [Hp Hr1] [_ Hr2] Hev.
    pose proof Ha1 as [[] [] _]. pose proof Ha2 as [_ [] _]. unfold is_int in *.
    destruct (wide_instances g_ok f_ok HR (ca_states a1) (ca_counting a1) (ca_counting a2) A vw Hw) as (I1 & I2 & E1n & E1p & E2 & Lw1 & Lw2 & WL); [done|done|lia|].
    pose proof (clf_run_wide g_ok f_ok HR S1 HS1 S2 HS2 A vw _ _ _ I1 I2 E1n E1p E2 Lw1 Lw2 WL a1 a2 Ha1 Ha2 Haa eq_refl eq_refl
      ltac:(by rewrite (wd_states _ _ Haa)) p1 p2 None (construct S1 A p1) (construct S2 A p2) os Hh1 Hh2 Hu1 Hu2 eq_refl eq_refl Logic.I Hp Hev _ _ Hr1 Hr2) as (E & He & _ & _).
    cbn [fst snd] in *. split; [done|]. intros L nf Hd. change (clf_dims_from None os rs1) with (clf_dims_of os rs1) in He. rewrite Hd in He.
    destruct He as ([Hc Hws] & Eg & Ef & _). done.
  Qed.
  Lemma reg_wide_history a1 a2 p1 p2 os rs1 rs2 e1 e2 : trains_well R (ra_states a1) A vw ->
    reg_created a1 p1 -> reg_created a2 p2 -> reg_wide a1 a2 ->
    reg_history S1 A vw p1 os rs1 e1 -> reg_history S2 A vw p2 os rs2 e2 ->
    rs2 = rs1 /\ (forall nf, reg_dims_of os rs1 = Some nf ->
      same_automata vw (2 * reg_n a1) nf (e_ta e1) (e_ta e2) /\ rweights_alike a1 a2 (ta_weights (e_ta e1)) (ta_weights (e_ta e2)) /\
      e_igen e2 = e_igen e1).
  Proof using HR HS1 HS2.
    intros Hw [Ha1 Hh1] [Ha2 Hh2] Haa [Hp Hr1] [_ Hr2].
    pose proof Ha1 as [[] [] _]. pose proof Ha2 as [_ [] _]. unfold is_int in *.
    destruct (wide_instances g_ok f_ok HR (ra_states a1) (ra_counting a1) (ra_counting a2) A vw Hw) as (I1 & I2 & E1n & E1p & E2 & Lw1 & Lw2 & WL); [done|done|lia|].
    pose proof (reg_run_wide g_ok f_ok HR S1 HS1 S2 HS2 A vw _ _ _ I1 I2 E1n E1p E2 Lw1 Lw2 WL a1 a2 Ha1 Ha2 Haa eq_refl eq_refl
      ltac:(by rewrite (rwd_states _ _ Haa)) p1 p2 None (construct S1 A p1) (construct S2 A p2) os Hh1 Hh2 eq_refl eq_refl Logic.I Hp _ _ Hr1 Hr2) as (E & He & _ & _).
    cbn [fst snd] in *. split; [done|]. intros nf Hd. change (reg_dims_from None os rs1) with (reg_dims_of os rs1) in He. rewrite Hd in He.
    destruct He as ([Hc Hws] & Eg & _). done.
  Qed.

  Lemma clf_storage_free a1 a2 p1 p2 os rs1 rs2 e1 e2 : trains_well R (ca_states a1) A vw ->
    clf_created a1 p1 -> clf_created a2 p2 -> clf_same_but_storage a1 a2 ->
    clf_history S1 A vw p1 os rs1 e1 -> clf_history S2 A vw p2 os rs2 e2 -> evaluates_ok S1 A vw None (construct S1 A p1) os ->
    rs2 = rs1 /\ (forall L nf, clf_dims_of os rs1 = Some (L, nf) ->
      same_automata vw (L * Z.to_nat (ca_clauses a1)) nf (e_ta e1) (e_ta e2) /\ ta_weights (e_ta e2) = ta_weights (e_ta e1) /\
      e_igen e2 = e_igen e1 /\ e_fgen e2 = e_fgen e1).
  Proof using HR HS1 HS2.
    intros Hw Hc1 Hc2 []. intros Hh1 Hh2 Hev.
    destruct (clf_wide_history a1 a2 p1 p2 os rs1 rs2 e1 e2 Hw Hc1 Hc2 ltac:(constructor; auto) Hh1 Hh2 Hev) as [E H].
    split; [done|]. intros L nf Hd. destruct (H L nf Hd) as (X1 & X2 & X3). split; [|split; [|done]].
    - destruct (clf_opl_facts a1 (cc_valid _ _ Hc1)) as (Ecl & _). replace (L * Z.to_nat (ca_clauses a1))%nat with (2 * (L * clf_opl a1))%nat by lia. done.
    - apply X2. done.
  Qed.
  Lemma reg_storage_free a1 a2 p1 p2 os rs1 rs2 e1 e2 : trains_well R (ra_states a1) A vw ->
    reg_created a1 p1 -> reg_created a2 p2 -> reg_same_but_storage a1 a2 ->
    reg_history S1 A vw p1 os rs1 e1 -> reg_history S2 A vw p2 os rs2 e2 ->
    rs2 = rs1 /\ (forall nf, reg_dims_of os rs1 = Some nf ->
      same_automata vw (Z.to_nat (ra_clauses a1)) nf (e_ta e1) (e_ta e2) /\ ta_weights (e_ta e2) = ta_weights (e_ta e1) /\
      e_igen e2 = e_igen e1).
  Proof using HR HS1 HS2.
    intros Hw Hc1 Hc2 []. intros Hh1 Hh2.
    destruct (reg_wide_history a1 a2 p1 p2 os rs1 rs2 e1 e2 Hw Hc1 Hc2 ltac:(constructor; auto) Hh1 Hh2) as [E H].
    split; [done|]. intros nf Hd. destruct (H nf Hd) as (X1 & X2 & X3). split; [|split; [|done]].
    - destruct (reg_n_facts a1 (rc_valid _ _ Hc1)) as (Ecl & _). replace (Z.to_nat (ra_clauses a1))%nat with (2 * (reg_n a1))%nat by lia. done.
    - apply X2. done.
  Qed.
  Lemma clf_trivial_weights a1 a2 p1 p2 os rs1 rs2 e1 e2 : trains_well R (ca_states a1) A vw ->
    clf_created a1 p1 -> clf_created a2 p2 -> clf_same_but_weighting a1 a2 ->
    weights_trivial (ca_weighted a1) (ca_max_weight a1) -> weights_trivial (ca_weighted a2) (ca_max_weight a2) ->
    clf_history S1 A vw p1 os rs1 e1 -> clf_history S2 A vw p2 os rs2 e2 -> evaluates_ok S1 A vw None (construct S1 A p1) os ->
    rs2 = rs1 /\ (forall L nf, clf_dims_of os rs1 = Some (L, nf) ->
      same_automata vw (L * Z.to_nat (ca_clauses a1)) nf (e_ta e1) (e_ta e2) /\ e_igen e2 = e_igen e1 /\ e_fgen e2 = e_fgen e1).
  Proof using HR HS1 HS2.
    intros Hw Hc1 Hc2 [] T1 T2 Hh1 Hh2 Hev.
    destruct (clf_wide_history a1 a2 p1 p2 os rs1 rs2 e1 e2 Hw Hc1 Hc2 ltac:(constructor; auto) Hh1 Hh2 Hev) as [E H].
    split; [done|]. intros L nf Hd. destruct (H L nf Hd) as (X1 & X2 & X3). split; [|done].
    destruct (clf_opl_facts a1 (cc_valid _ _ Hc1)) as (Ecl & _). replace (L * Z.to_nat (ca_clauses a1))%nat with (2 * (L * clf_opl a1))%nat by lia. done.
  Qed.
  Lemma reg_trivial_weights a1 a2 p1 p2 os rs1 rs2 e1 e2 : trains_well R (ra_states a1) A vw ->
    reg_created a1 p1 -> reg_created a2 p2 -> reg_same_but_weighting a1 a2 ->
    weights_trivial (ra_weighted a1) (ra_max_weight a1) -> weights_trivial (ra_weighted a2) (ra_max_weight a2) ->
    reg_history S1 A vw p1 os rs1 e1 -> reg_history S2 A vw p2 os rs2 e2 ->
    rs2 = rs1 /\ (forall nf, reg_dims_of os rs1 = Some nf ->
      same_automata vw (Z.to_nat (ra_clauses a1)) nf (e_ta e1) (e_ta e2) /\ e_igen e2 = e_igen e1).
  Proof using HR HS1 HS2.
    intros Hw Hc1 Hc2 [] T1 T2 Hh1 Hh2.
    destruct (reg_wide_history a1 a2 p1 p2 os rs1 rs2 e1 e2 Hw Hc1 Hc2 ltac:(constructor; auto) Hh1 Hh2) as [E H].
    split; [done|]. intros nf Hd. destruct (H nf Hd) as (X1 & X2 & X3). split; [|done].
    destruct (reg_n_facts a1 (rc_valid _ _ Hc1)) as (Ecl & _). replace (Z.to_nat (ra_clauses a1))%nat with (2 * (reg_n a1))%nat by lia. done.
  Qed.
End Facts.
