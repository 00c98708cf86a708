(** * Property theorems about training on one sample: C80 (it never makes the answer for that sample worse).
      Reading guide: see PropsPredict.v.  [fires vw nf s x j]: clause j holds on sample x, clauses without literals included;
      [mentions A vw s j k]: clause j has a literal of feature k. *)
From Verif Require Import PropFacts StepFacts Relevance Learned Progress ToyFacts ToyTrain ToyProgress.
From stdpp Require Import list.
Local Open Scope Z_scope.

(** C80: [v], [v'] are the decision function before and after [n] epochs on the one sample [x] of label [t]: the value of [t] is not lower,
    that of every other label not higher, and a correct prediction stays correct. *)
Theorem C80_classifier : forall (R : rnd) g_ok f_ok (S : sch) (A : algo R) (vw : aview A) a p os rs e e' L nf x t ml n,
  rnd_ok R g_ok f_ok -> sch_ok S -> trains_well R (ca_states a) A vw -> clf_created a p -> clf_history S A vw p os rs e ->
  clf_dims_of os rs = Some (L, nf) -> v_phys vw x -> clf_partial_fit S A e [x] [t] ml n = Ret (S_OK, e') ->
  exists v v' r r' e1 e2 e3 e4,
    clf_decision1 S A e x = Ret (Right v, e1) /\ clf_decision1 S A e' x = Ret (Right v', e2) /\
    clf_predict1 S A e x = Ret (Right r, e3) /\ clf_predict1 S A e' x = Ret (Right r', e4) /\
    length v = L /\ length v' = L /\ 0 <= t < Z.of_nat L /\
    (forall l b b', v !! l = Some b -> v' !! l = Some b' -> if Z.of_nat l =? t then b <= b' else b' <= b) /\
    (r = t -> r' = t).
Proof. intros * HR HS Hw Hc Hh Hd Px E. exact (clf_progress_call g_ok f_ok HR S HS A vw a p os rs e e' L nf x t ml n Hw Hc Hh Hd Px E). Qed.
Print Assumptions C80_classifier.
(** the regressor, one epoch.  [r]: the response training compares with [y] (clauses without literals count in it, in predictions they do not). *)
Theorem C80_regressor : forall (R : rnd) g_ok f_ok (S : sch) (A : algo R) (vw : aview A) a p os rs e e' nf x y,
  rnd_ok R g_ok f_ok -> sch_ok S -> trains_well R (ra_states a) A vw -> reg_created a p -> reg_history S A vw p os rs e ->
  reg_dims_of os rs = Some nf -> v_phys vw x -> reg_partial_fit S A e [x] [y] 1 = Ret (S_OK, e') ->
  let c := Z.to_nat (ra_clauses a / 2) in
  let r := clamp 0 (ra_threshold a) (total_votes c (fires vw nf (e_ta e) x) (weight_of (ta_weights (e_ta e)))) in
  exists b b' e1 e2, reg_predict1 S A e x = Ret (Right b, e1) /\ reg_predict1 S A e' x = Ret (Right b', e2) /\
    (r < y -> b <= b') /\ (r = y -> b' = b) /\ (y < r -> b' <= b) /\
    (y <= b -> b' <= b) /\
    ((forall j, (j < c)%nat -> exists k, (k < nf)%nat /\ mentions A vw (e_ta e) j k) -> b <= y -> b <= b').
Proof. intros * HR HS Hw Hc Hh Hd Px E. exact (reg_progress_call g_ok f_ok HR S HS A vw a p os rs e e' nf x y Hw Hc Hh Hd Px E). Qed.
Print Assumptions C80_regressor.
(** a label that was not predicted gains votes and is predicted afterwards *)
Example C80_example : exists e e', clf_history toy_sch CL (cl_view toy) toy_clf_params [CFit CL toy_X toy_y 0 1] [CRStatus S_OK] e /\
  clf_dims_of [CFit CL toy_X toy_y 0 1] [CRStatus S_OK] = Some (2%nat, 3%nat) /\
  clf_partial_fit toy_sch CL e [[0; 0; 1]] [0] 0 3 = Ret (S_OK, e') /\
  results (clf_decision1 toy_sch CL e [0; 0; 1]) = Some (Right [0; 2]) /\
  results (clf_decision1 toy_sch CL e' [0; 0; 1]) = Some (Right [2; 0]).
Proof. exact progress_example. Qed.
(** predictions move towards the response (the first one past it) *)
Example C80_regressor_example : exists e e1 e2, reg_history toy_sch CL (cl_view toy) toy_reg_params [RFit CL toy_X toy_ry 2] [RRStatus S_OK] e /\
  reg_dims_of [RFit CL toy_X toy_ry 2] [RRStatus S_OK] = Some 3%nat /\
  reg_partial_fit toy_sch CL e [[1; 0; 0]] [1] 1 = Ret (S_OK, e1) /\ train_response (cl_view toy) toy_ra 3 (e_ta e) [1; 0; 0] = 0 /\
  results (reg_predict1 toy_sch CL e [1; 0; 0]) = Some (Right 0) /\ results (reg_predict1 toy_sch CL e1 [1; 0; 0]) = Some (Right 2) /\
  reg_partial_fit toy_sch CL e [[1; 1; 0]] [0] 1 = Ret (S_OK, e2) /\
  results (reg_predict1 toy_sch CL e [1; 1; 0]) = Some (Right 2) /\ results (reg_predict1 toy_sch CL e2 [1; 1; 0]) = Some (Right 1).
Proof. exact progress_reg_example. Qed.
