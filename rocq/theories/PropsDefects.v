(** * Property theorems about defects of the library and about the initial state: C11, C14, C21, C24, C46, C52.
    Reading guide: see PropsPredict.v; [good_samples], [n_labels], [sizes_fit] as in PropsFloat.v. *)
From Verif Require Import Base Containers Floats Rng Env Algo Params Estimator Spec Laws ParamFacts HistFacts StepFacts MtInst Toy ToyFacts ToyTrain ToyDefects DefectFacts InitFacts TotalFacts TotalProps CtFacts PropFacts Reach.
From stdpp Require Import list.
Local Open Scope Z_scope.

(** C11: evaluate checks nothing.  On an estimator that was never fitted it throws; with fewer labels than samples it reads beyond the labels;
    without samples it returns not-a-number. *)
Theorem C11_evaluate_unfitted : forall (R : rnd) g_ok f_ok (S : sch) (A : algo R) (vw : aview A) a p os rs e X y,
  rnd_ok R g_ok f_ok -> sch_ok S -> tsetlini_algo R A vw -> clf_created a p -> clf_history S A vw p os rs e -> clf_dims_of os rs = None ->
  exists k, clf_evaluate S A e X y = Throw k.
Proof. intros * HR HS HA. exact (evaluate_unfitted g_ok f_ok HR S HS A vw HA a p os rs e X y). Qed.
Print Assumptions C11_evaluate_unfitted.
Theorem C11_evaluate_too_few_labels : forall (R : rnd) g_ok f_ok (S : sch) (A : algo R) (vw : aview A) a p os rs e L nf X y,
  rnd_ok R g_ok f_ok -> sch_ok S -> tsetlini_algo R A vw -> clf_created a p -> clf_history S A vw p os rs e -> clf_dims_of os rs = Some (L, nf) ->
  Forall (v_ok vw nf) X -> (length y < length X)%nat -> Z.of_nat (length X) <= int_max ->
  clf_evaluate S A e X y = UB OutOfBounds.
Proof.
  intros * HR HS HA Hc. destruct (clf_hist_laws g_ok f_ok HR A vw HA a (cc_valid _ _ Hc)) as (I & Ea & Eb & E2 & Lw).
  exact (evaluate_short g_ok f_ok HR S HS A vw I Ea Eb E2 a (cc_valid _ _ Hc) Lw p os rs e L nf X y Hc).
Qed.
Print Assumptions C11_evaluate_too_few_labels.
Theorem C11_evaluate_nothing : forall (R : rnd) g_ok f_ok (S : sch) (A : algo R) (vw : aview A) a p os rs e L nf y,
  rnd_ok R g_ok f_ok -> sch_ok S -> tsetlini_algo R A vw -> clf_created a p -> clf_history S A vw p os rs e -> clf_dims_of os rs = Some (L, nf) ->
  exists e', clf_evaluate S A e [] y = Ret (Right S754_nan, e').
Proof.
  intros * HR HS HA Hc. destruct (clf_hist_laws g_ok f_ok HR A vw HA a (cc_valid _ _ Hc)) as (I & Ea & Eb & E2 & Lw).
  exact (evaluate_nothing g_ok f_ok HR S HS A vw I Ea Eb E2 a (cc_valid _ _ Hc) Lw p os rs e L nf y Hc).
Qed.
Print Assumptions C11_evaluate_nothing.
Example C11_example : exists e,
  clf_history toy_sch CL (cl_view toy) toy_clf_params (toy_clf_ops CL toy_X) (toy_clf_res [0; 1; 0; 0] [0; 1; 1; 0]) e /\
  clf_dims_of (toy_clf_ops CL toy_X) (toy_clf_res [0; 1; 0; 0] [0; 1; 1; 0]) = Some (2%nat, 3%nat) /\
  Forall (v_ok (cl_view toy) 3) toy_X /\ (length [0; 1] < length toy_X)%nat.
Proof. destruct toy_classic_clf as (e & H). exists e. split; [exact H|]. split; [reflexivity|]. split; [apply toy_good|cbn; lia]. Qed.

(** C14: with one state per action the bitwise classifier leaves its invariants: there are accepted arguments, environments and successful
    calls after which an automaton is at 0 while its polarity bit is clear, and another is above number_of_states - 1. *)
Theorem C14_one_state_refuted : exists (R : rnd) g_ok f_ok (S : sch) a p os rs e,
  rnd_ok R g_ok f_ok /\ sch_ok S /\ clf_created a p /\ ca_states a = 1 /\
  clf_history S (Algo.bitwise R) (bw_view R) p os rs e /\ Forall (fun r => r = CRStatus S_OK) rs /\
  (exists r c, (r < nm_rows (ta_matrix (e_ta e)))%nat /\ (c < nm_cols (ta_matrix (e_ta e)))%nat /\
     0 <= nm_cell (ta_matrix (e_ta e)) r c /\ bm_bit 64 (ta_pol (e_ta e)) r c = false) /\
  (exists r c, (r < nm_rows (ta_matrix (e_ta e)))%nat /\ (c < nm_cols (ta_matrix (e_ta e)))%nat /\
     ca_states a - 1 < nm_cell (ta_matrix (e_ta e)) r c).
Proof.
  destruct n1_broken as (e & H & Er & Ec & E1 & E2 & E3).
  exists mt42, irng_ok, frng_ok, toy_sch, n1_a, n1_params, n1_ops, [CRStatus S_OK], e.
  split; [exact mt42_ok|]. split; [exact toy_sch_ok|]. split; [exact n1_created|]. split; [reflexivity|]. split; [exact H|].
  split; [repeat constructor|]. clear H. destruct (e_ta e) as [m ws q]. cbn [ta_matrix ta_pol] in *. split.
  - exists 2%nat, 0%nat. rewrite Er, Ec, E1. split; [lia|]. split; [lia|]. split; [lia|exact E2].
  - exists 4%nat, 0%nat. rewrite Er, Ec, E3. split; [lia|]. split; [lia|]. reflexivity.
Qed.
Print Assumptions C14_one_state_refuted.

(** C21: whatever was done before, fitting valid samples whose labels are all 0 (and no larger number of labels requested) divides by zero. *)
Theorem C21_single_label_refuted : forall (R : rnd) g_ok f_ok (S : sch) (A : algo R) (vw : aview A) a p os rs e nf X y ml n,
  rnd_ok R g_ok f_ok -> sch_ok S -> tsetlini_algo R A vw -> clf_created a p -> clf_history S A vw p os rs e ->
  good_samples A vw nf X y -> Forall (fun v => v = 0) y -> ml <= 1 -> (0 < n)%nat ->
  Z.of_nat nf <= int_max -> sizes_fit (ca_clauses a) (Z.of_nat nf) ->
  clf_fit S A e X y ml n = UB DivByZero.
Proof.
  intros * HR HS HA Hc Hh Hg Hy Hml Hn Hnf Hsz. destruct (clf_hist_laws g_ok f_ok HR A vw HA a (cc_valid _ _ Hc)) as (I & Ea & Eb & E2 & Lw).
  exact (one_label_undefined g_ok f_ok HR S HS A vw HA I Ea Eb E2 a (cc_valid _ _ Hc) Lw p os rs e nf X y ml n Hc Hh Hg Hy Hml Hnf Hsz Hn).
Qed.
Print Assumptions C21_single_label_refuted.
Example C21_example : clf_created toy_a toy_clf_params /\ good_samples CL (cl_view toy) 3 toy_X [0; 0; 0; 0] /\ sizes_fit (ca_clauses toy_a) 3 /\
  clf_fit toy_sch CL (construct toy_sch CL toy_clf_params) toy_X [0; 0; 0; 0] 0 1 = UB DivByZero.
Proof. split; [exact toy_clf_created|]. split; [exact toy_good0|]. split; vm_compute; reflexivity. Qed.

(** C24: a fit keeps the weights of an estimator with weighted clauses: with zero epochs they are the old ones, cut or extended with
    zeros to the new number of clauses ([clf_opl] : a half of number_of_clauses_per_label) ... *)
Theorem C24_fit_keeps_weights : forall (R : rnd) g_ok f_ok (S : sch) (A : algo R) (vw : aview A) a p os rs e nf X y ml,
  rnd_ok R g_ok f_ok -> sch_ok S -> tsetlini_algo R A vw -> clf_created a p -> clf_history S A vw p os rs e -> ca_weighted a = true ->
  good_samples A vw nf X y -> Forall (fun v => 0 <= v < int_max) y ->
  Z.of_nat nf <= int_max -> sizes_fit (n_labels y ml * ca_clauses a) (Z.of_nat nf) ->
  exists e', clf_fit S A e X y ml 0 = Ret (S_OK, e') /\
    let old := ta_weights (e_ta e) in let k := (Z.to_nat (n_labels y ml) * clf_opl a)%nat in
    ta_weights (e_ta e') = take k old ++ replicate (k - length old) 0.
Proof.
  intros * HR HS HA Hc Hh Hw Hg Hy Hnf Hsz. destruct (clf_hist_laws g_ok f_ok HR A vw HA a (cc_valid _ _ Hc)) as (I & Ea & Eb & E2 & Lw).
  destruct (refit_weights g_ok f_ok HR S HS A vw HA I Ea Eb E2 a (cc_valid _ _ Hc) Lw p os rs e nf X y ml Hc Hh Hg Hy Hnf Hsz) as (e' & H1 & _ & H2).
  exists e'. split; [exact H1|]. rewrite Hw in H2. exact H2.
Qed.
Print Assumptions C24_fit_keeps_weights.
(** ... so a refit does not end as a fit of a new estimator does: the decision function differs. *)
Theorem C24_refit_refuted : exists (R : rnd) g_ok f_ok (S : sch) a p os rs e X y ml n e1 e2,
  rnd_ok R g_ok f_ok /\ sch_ok S /\ clf_created a p /\ clf_history S (classic R) (cl_view R) p os rs e /\
  clf_fit S (classic R) e X y ml n = Ret (S_OK, e1) /\ clf_fit S (classic R) (construct S (classic R) p) X y ml n = Ret (S_OK, e2) /\
  exists v1 v2 e1' e2', clf_decision S (classic R) e1 X = Ret (Right v1, e1') /\ clf_decision S (classic R) e2 X = Ret (Right v2, e2') /\ v1 <> v2.
Proof.
  destruct toy_weights_survive as (e & e1 & e2 & H & H1 & H2 & _ & D1 & D2).
  apply results_ret in D1 as (e1' & D1). apply results_ret in D2 as (e2' & D2).
  exists toy, toy_g, toy_f, toy_sch, toy_a, toy_clf_params, toy_fit3, [CRStatus S_OK], e, toy_X, toy_y, 0, 0%nat, e1, e2.
  split; [exact toy_ok|]. split; [exact toy_sch_ok|]. split; [exact toy_clf_created|]. split; [exact H|]. split; [exact H1|]. split; [exact H2|].
  eexists _, _, e1', e2'. split; [exact D1|]. split; [exact D2|]. discriminate.
Qed.
Print Assumptions C24_refit_refuted.

(** C46: with a threshold of 2^30 or more every fit of valid data overflows. *)
Theorem C46_large_threshold_refuted : forall (R : rnd) g_ok f_ok (S : sch) (A : algo R) (vw : aview A) a p os rs e nf X y ml n,
  rnd_ok R g_ok f_ok -> sch_ok S -> tsetlini_algo R A vw -> clf_created a p -> clf_history S A vw p os rs e ->
  1073741824 <= ca_threshold a ->
  good_samples A vw nf X y -> Forall (fun v => 0 <= v < int_max) y -> 2 <= n_labels y ml -> (0 < n)%nat ->
  Z.of_nat nf <= int_max -> sizes_fit (n_labels y ml * ca_clauses a) (Z.of_nat nf) ->
  clf_fit S A e X y ml n = UB SignedOverflow.
Proof.
  intros * HR HS HA Hc Hh HT Hg Hy HL Hn Hnf Hsz. destruct (clf_hist_laws g_ok f_ok HR A vw HA a (cc_valid _ _ Hc)) as (I & Ea & Eb & E2 & Lw).
  exact (big_threshold_undefined g_ok f_ok HR S HS A vw HA I Ea Eb E2 a (cc_valid _ _ Hc) Lw p os rs e nf X y ml n Hc Hh Hg Hy HL Hnf Hsz Hn HT).
Qed.
Print Assumptions C46_large_threshold_refuted.
Example C46_example : clf_created big_a big_params /\ 1073741824 <= ca_threshold big_a /\ good_samples CL (cl_view toy) 3 toy_X toy_y /\
  Forall (fun v => 0 <= v < int_max) toy_y /\ 2 <= n_labels toy_y 0 /\ sizes_fit (n_labels toy_y 0 * ca_clauses big_a) 3 /\
  clf_fit toy_sch CL (construct toy_sch CL big_params) toy_X toy_y 0 1 = UB SignedOverflow.
Proof.
  split; [exact big_created|]. split; [vm_compute; discriminate|]. split; [exact toy_good|]. split; [exact toy_y_int|].
  split; [vm_compute; discriminate|]. split; vm_compute; reflexivity.
Qed.

(** C52: initialisation.  After a fit with zero epochs every automaton is at -1 or 0, decided by one draw of the generator seeded with
    random_state, row by row; the generators continue from there.  [g_draw R g i] is draw number i of g, [g_iter R n g] is g after n draws. *)
Theorem C52_classifier_initial_state : forall (R : rnd) g_ok f_ok (S : sch) (A : algo R) (vw : aview A) a p os rs e nf X y ml seed,
  rnd_ok R g_ok f_ok -> sch_ok S -> tsetlini_algo R A vw -> clf_created a p -> clf_history S A vw p os rs e ->
  good_samples A vw nf X y -> Forall (fun v => 0 <= v < int_max) y -> Z.of_nat nf <= int_max ->
  sizes_fit (n_labels y ml * ca_clauses a) (Z.of_nat nf) -> ca_seed a = Some seed ->
  exists e', clf_fit S A e X y ml 0 = Ret (S_OK, e') /\
    let rows := Z.to_nat (n_labels y ml * ca_clauses a) in let g := g_init R (wrap_s 32 seed) in
    nm_rows (ta_matrix (e_ta e')) = rows /\ nm_cols (ta_matrix (e_ta e')) = nf /\
    (forall r c, (r < rows)%nat -> (c < nf)%nat -> nm_cell (ta_matrix (e_ta e')) r c = g_draw R g (r * nf + c) mod 2 - 1) /\
    e_igen e' = g_iter R (rows * nf) g /\ e_fgen e' = f_init R (wrap_s 32 seed).
Proof. intros * HR HS HA. exact (clf_fresh g_ok f_ok HR S HS A vw HA a p os rs e nf X y ml seed). Qed.
Print Assumptions C52_classifier_initial_state.
Theorem C52_regressor_initial_state : forall (R : rnd) g_ok f_ok (S : sch) (A : algo R) (vw : aview A) a p os rs e X y seed e',
  rnd_ok R g_ok f_ok -> sch_ok S -> tsetlini_algo R A vw -> reg_created a p -> reg_history S A vw p os rs e ->
  reg_fit S A e X y 0 = Ret (S_OK, e') -> ra_seed a = Some seed ->
    let rows := Z.to_nat (ra_clauses a) in let g := g_init R (wrap_s 32 seed) in let nf := features_of X in
    nm_rows (ta_matrix (e_ta e')) = rows /\ nm_cols (ta_matrix (e_ta e')) = nf /\
    (forall r c, (r < rows)%nat -> (c < nf)%nat -> nm_cell (ta_matrix (e_ta e')) r c = g_draw R g (r * nf + c) mod 2 - 1) /\
    e_igen e' = g_iter R (rows * nf) g /\ e_fgen e' = f_init R (wrap_s 32 seed).
Proof. intros * HR HS HA. exact (reg_fresh g_ok f_ok HR S HS A vw HA a p os rs e X y seed e'). Qed.
Print Assumptions C52_regressor_initial_state.
Example C52_example : ca_seed toy_a = Some 42 /\ clf_created toy_a toy_clf_params /\ good_samples CL (cl_view toy) 3 toy_X toy_y /\
  sizes_fit (n_labels toy_y 0 * ca_clauses toy_a) 3 /\
  map (fun i => g_draw toy (g_init toy (wrap_s 32 42)) i mod 2 - 1) (seq 0 6) = [0; 0; -1; 0; 0; 0].
Proof. split; [reflexivity|]. split; [exact toy_clf_created|]. split; [exact toy_good|]. split; vm_compute; reflexivity. Qed.
