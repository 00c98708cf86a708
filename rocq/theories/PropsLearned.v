(** * Property theorems about training calls as a whole: C77 (learned samples change nothing) and C78 (training moves slowly).
      Reading guide: see PropsPredict.v.  [fires vw nf s x j]: clause j holds on sample x, clauses without literals included;
      [mentions A vw s j k]: clause j has a literal of feature k; [clause_untouched vw nf j s s']: automata, literals and weight of clause j
      are the same in s and s'. *)
From Verif Require Import PropFacts StepFacts FloatProps Relevance Learned ToyFacts ToyTrain ToyFloat ToyLearned.
From stdpp Require Import list.
Local Open Scope Z_scope.

(** C77: when every sample of the data has votes +T for its label and -T for all others, any number of epochs leaves every clause,
    and the answers to every sample whatever, as they were. *)
Theorem C77_classifier : forall (R : rnd) g_ok f_ok (S : sch) (A : algo R) (vw : aview A) a p os rs e e' L nf X y ml n,
  rnd_ok R g_ok f_ok -> sch_ok S -> trains_well R (ca_states a) A vw -> clf_created a p -> clf_history S A vw p os rs e ->
  clf_dims_of os rs = Some (L, nf) -> Forall (v_phys vw) X -> ca_threshold a < 1073741824 -> clf_partial_fit S A e X y ml n = Ret (S_OK, e') ->
  let c := Z.to_nat (ca_clauses a / 2) in
  let T := ca_threshold a in
  let votes x l := clamp (- T) T (signed_votes c (fun i => fires vw nf (e_ta e) x (l * c + i)) (fun i => weight_of (ta_weights (e_ta e)) (l * c + i))) in
  (forall x t, (x, t) ∈ zip X y -> forall l, (l < L)%nat -> votes x l = if Z.of_nat l =? t then T else - T) ->
  (forall j, (j < L * c)%nat -> clause_untouched vw nf j (e_ta e) (e_ta e')) /\
  forall x, v_phys vw x -> v_ok vw nf x ->
    exists v l e1 e2 e3 e4, clf_decision1 S A e x = Ret (Right v, e1) /\ clf_decision1 S A e' x = Ret (Right v, e2) /\
      clf_predict1 S A e x = Ret (Right l, e3) /\ clf_predict1 S A e' x = Ret (Right l, e4).
Proof. intros * HR HS Hw Hc Hh Hd HX HT E. exact (clf_learned_call g_ok f_ok HR S HS A vw a p os rs e e' L nf X y ml n Hw Hc Hh Hd HX HT E). Qed.
Print Assumptions C77_classifier.
(** the same in terms of the decision function alone, for a classifier none of whose clauses is empty *)
Theorem C77_classifier_decision_function : forall (R : rnd) g_ok f_ok (S : sch) (A : algo R) (vw : aview A) a p os rs e e' L nf X y ml n,
  rnd_ok R g_ok f_ok -> sch_ok S -> trains_well R (ca_states a) A vw -> clf_created a p -> clf_history S A vw p os rs e ->
  clf_dims_of os rs = Some (L, nf) -> Forall (v_phys vw) X -> ca_threshold a < 1073741824 -> clf_partial_fit S A e X y ml n = Ret (S_OK, e') ->
  (forall j, (j < L * Z.to_nat (ca_clauses a / 2))%nat -> exists k, (k < nf)%nat /\ mentions A vw (e_ta e) j k) ->
  (forall x t, (x, t) ∈ zip X y -> exists v e1, clf_decision1 S A e x = Ret (Right v, e1) /\
     forall l, (l < L)%nat -> v !! l = Some (if Z.of_nat l =? t then ca_threshold a else - ca_threshold a)) ->
  forall x, v_phys vw x -> v_ok vw nf x ->
    exists v l e1 e2 e3 e4, clf_decision1 S A e x = Ret (Right v, e1) /\ clf_decision1 S A e' x = Ret (Right v, e2) /\
      clf_predict1 S A e x = Ret (Right l, e3) /\ clf_predict1 S A e' x = Ret (Right l, e4).
Proof. intros * HR HS Hw Hc Hh Hd HX HT E. exact (clf_learned_answers g_ok f_ok HR S HS A vw a p os rs e e' L nf X y ml n Hw Hc Hh Hd HX HT E). Qed.
Print Assumptions C77_classifier_decision_function.
(** a regressor whose (training) response to every sample of the data is the wanted one keeps its whole state, and its answers *)
Theorem C77_regressor : forall (R : rnd) g_ok f_ok (S : sch) (A : algo R) (vw : aview A) a p os rs e e' nf X y n,
  rnd_ok R g_ok f_ok -> sch_ok S -> trains_well R (ra_states a) A vw -> reg_created a p -> reg_history S A vw p os rs e ->
  reg_dims_of os rs = Some nf -> Forall (v_phys vw) X -> reg_partial_fit S A e X y n = Ret (S_OK, e') ->
  (forall x t, (x, t) ∈ zip X y ->
     clamp 0 (ra_threshold a) (total_votes (Z.to_nat (ra_clauses a / 2)) (fires vw nf (e_ta e) x) (weight_of (ta_weights (e_ta e)))) = t) ->
  e_ta e' = e_ta e /\
  forall x, v_phys vw x -> v_ok vw nf x -> exists v e1 e2, reg_predict1 S A e x = Ret (Right v, e1) /\ reg_predict1 S A e' x = Ret (Right v, e2).
Proof. intros * HR HS Hw Hc Hh Hd HX E. exact (reg_learned_call g_ok f_ok HR S HS A vw a p os rs e e' nf X y n Hw Hc Hh Hd HX E). Qed.
Print Assumptions C77_regressor.
Theorem C77_regressor_predictions : forall (R : rnd) g_ok f_ok (S : sch) (A : algo R) (vw : aview A) a p os rs e e' nf X y n,
  rnd_ok R g_ok f_ok -> sch_ok S -> trains_well R (ra_states a) A vw -> reg_created a p -> reg_history S A vw p os rs e ->
  reg_dims_of os rs = Some nf -> Forall (v_phys vw) X -> reg_partial_fit S A e X y n = Ret (S_OK, e') ->
  (forall j, (j < Z.to_nat (ra_clauses a / 2))%nat -> exists k, (k < nf)%nat /\ mentions A vw (e_ta e) j k) ->
  (forall x t, (x, t) ∈ zip X y -> exists e1, reg_predict1 S A e x = Ret (Right t, e1)) ->
  forall x, v_phys vw x -> v_ok vw nf x -> exists v e1 e2, reg_predict1 S A e x = Ret (Right v, e1) /\ reg_predict1 S A e' x = Ret (Right v, e2).
Proof. intros * HR HS Hw Hc Hh Hd HX E. exact (reg_learned_answers g_ok f_ok HR S HS A vw a p os rs e e' nf X y n Hw Hc Hh Hd HX E). Qed.
Print Assumptions C77_regressor_predictions.
Example C77_example : exists e, clf_history toy_sch CL (cl_view toy) sat_params [CFit CL toy_X toy_y 0 6] [CRStatus S_OK] e /\
  clf_dims_of [CFit CL toy_X toy_y 0 6] [CRStatus S_OK] = Some (2%nat, 3%nat) /\
  results (clf_partial_fit toy_sch CL e known_X known_y 0 5) = Some S_OK /\
  (forall j, (j < 8)%nat -> exists k, (k < 3)%nat /\ mentions CL (cl_view toy) (e_ta e) j k) /\
  (forall x t, (x, t) ∈ zip known_X known_y -> results (clf_decision1 toy_sch CL e x) = Some (Right [-1; 1])) /\
  (forall x t, (x, t) ∈ zip known_X known_y -> clf_learned CL (cl_view toy) sat_a 2 3 (e_ta e) x t).
Proof. exact known_example. Qed.
Example C77_example_regressor : exists e, reg_history toy_sch CL (cl_view toy) toy_reg_params toy_rfit6 [RRStatus S_OK] e /\
  reg_dims_of toy_rfit6 [RRStatus S_OK] = Some 3%nat /\
  results (reg_partial_fit toy_sch CL e toy_X known_r 5) = Some S_OK /\
  (forall x t, (x, t) ∈ zip toy_X known_r -> results (reg_predict1 toy_sch CL e x) = Some (Right t)) /\
  (forall x t, (x, t) ∈ zip toy_X known_r -> train_response (cl_view toy) toy_ra 3 (e_ta e) x = t).
Proof. exact known_reg_example. Qed.

(** C78: a call that trains a classifier for n epochs on m samples moves every automaton at most n * m steps up (towards including its
    literal) and at most n * m * features steps down, and every weight by at most n * m; for a regressor, times the number of clauses. *)
Theorem C78_classifier : forall (R : rnd) g_ok f_ok (S : sch) (A : algo R) (vw : aview A) a p os rs e e' L nf X y ml n,
  rnd_ok R g_ok f_ok -> sch_ok S -> trains_well R (ca_states a) A vw -> clf_created a p -> clf_history S A vw p os rs e ->
  clf_dims_of os rs = Some (L, nf) -> Z.of_nat nf <= 16777216 -> Forall (v_phys vw) X -> clf_partial_fit S A e X y ml n = Ret (S_OK, e') ->
  let u := (n * length X)%nat in
  forall j, (j < L * Z.to_nat (ca_clauses a / 2))%nat ->
  (forall k, (k < nf)%nat ->
     pos_state (e_ta e) j k - Z.of_nat (u * nf) <= pos_state (e_ta e') j k <= pos_state (e_ta e) j k + Z.of_nat u /\
     neg_state (e_ta e) j k - Z.of_nat (u * nf) <= neg_state (e_ta e') j k <= neg_state (e_ta e) j k + Z.of_nat u) /\
  Z.abs (weight_of (ta_weights (e_ta e')) j - weight_of (ta_weights (e_ta e)) j) <= Z.of_nat u.
Proof. intros * HR HS Hw Hc Hh Hd Hnf HX E. exact (clf_drift_call g_ok f_ok HR S HS A vw a p os rs e e' L nf X y ml n Hw Hc Hh Hd Hnf HX E). Qed.
Print Assumptions C78_classifier.
Theorem C78_regressor : forall (R : rnd) g_ok f_ok (S : sch) (A : algo R) (vw : aview A) a p os rs e e' nf X y n,
  rnd_ok R g_ok f_ok -> sch_ok S -> trains_well R (ra_states a) A vw -> reg_created a p -> reg_history S A vw p os rs e ->
  reg_dims_of os rs = Some nf -> Z.of_nat nf <= 16777216 -> Forall (v_phys vw) X -> reg_partial_fit S A e X y n = Ret (S_OK, e') ->
  let u := (n * length X * Z.to_nat (ra_clauses a / 2))%nat in
  forall j, (j < Z.to_nat (ra_clauses a / 2))%nat ->
  (forall k, (k < nf)%nat ->
     pos_state (e_ta e) j k - Z.of_nat (u * nf) <= pos_state (e_ta e') j k <= pos_state (e_ta e) j k + Z.of_nat u /\
     neg_state (e_ta e) j k - Z.of_nat (u * nf) <= neg_state (e_ta e') j k <= neg_state (e_ta e) j k + Z.of_nat u) /\
  Z.abs (weight_of (ta_weights (e_ta e')) j - weight_of (ta_weights (e_ta e)) j) <= Z.of_nat u.
Proof. intros * HR HS Hw Hc Hh Hd Hnf HX E. exact (reg_drift_call g_ok f_ok HR S HS A vw a p os rs e e' nf X y n Hw Hc Hh Hd Hnf HX E). Qed.
Print Assumptions C78_regressor.
Example C78_example : exists e e', clf_history toy_sch CL (cl_view toy) toy_clf_params toy_fit1 [CRStatus S_OK] e /\
  clf_partial_fit toy_sch CL e toy_X toy_y 0 3 = Ret (S_OK, e') /\ ta_weights (e_ta e) <> ta_weights (e_ta e').
Proof. exact toy_more. Qed.
