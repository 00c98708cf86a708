(** * C82: what the scores of two classifiers say about them. *)
From Verif Require Import FloatProps ScoreProps ToyFloat PropsFloat.
From stdpp Require Import list.
Local Open Scope Z_scope.

(** Two classifiers (of any kinds, trained in any way) and two data sets of the same size: the one with more right answers never gets the
    lower score, equally many right answers give the same score, and up to 2097152 samples more right answers give a higher score.
    [agreements ys y]: number of positions at which the answers [ys] of predict agree with [y]. *)
Theorem C82_scores_order_classifiers : forall (R1 R2 : rnd) g1 f1 g2 f2 (S1 S2 : sch) (A1 : algo R1) (A2 : algo R2) (v1 : aview A1) (v2 : aview A2)
    a1 p1 os1 rs1 e1 L1 nf1 X1 y1 ys1 s1 d1 d1' a2 p2 os2 rs2 e2 L2 nf2 X2 y2 ys2 s2 d2 d2',
  rnd_ok R1 g1 f1 -> rnd_ok R2 g2 f2 -> sch_ok S1 -> sch_ok S2 -> tsetlini_algo R1 A1 v1 -> tsetlini_algo R2 A2 v2 ->
  clf_created a1 p1 -> clf_history S1 A1 v1 p1 os1 rs1 e1 -> clf_dims_of os1 rs1 = Some (L1, nf1) ->
  Forall (v_phys v1) X1 -> Forall (v_ok v1 nf1) X1 -> length y1 = length X1 ->
  clf_created a2 p2 -> clf_history S2 A2 v2 p2 os2 rs2 e2 -> clf_dims_of os2 rs2 = Some (L2, nf2) ->
  Forall (v_phys v2) X2 -> Forall (v_ok v2 nf2) X2 -> length y2 = length X2 ->
  length X1 = length X2 -> X1 <> [] -> Z.of_nat (length X1) <= int_max ->
  clf_predict S1 A1 e1 X1 = Ret (Right ys1, d1) -> clf_evaluate S1 A1 e1 X1 y1 = Ret (Right s1, d1') ->
  clf_predict S2 A2 e2 X2 = Ret (Right ys2, d2) -> clf_evaluate S2 A2 e2 X2 y2 = Ret (Right s2, d2') ->
  ((agreements ys1 y1 <= agreements ys2 y2)%nat -> f_le s1 s2 = true) /\
  (agreements ys1 y1 = agreements ys2 y2 -> s1 = s2) /\
  ((agreements ys1 y1 < agreements ys2 y2)%nat -> Z.of_nat (length X1) <= 2097152 -> f_lt s1 s2 = true).
Proof.
  intros * HR1 HR2 HS1 HS2 HA1 HA2.
  exact (scores_ordered g1 f1 g2 f2 HR1 HR2 S1 S2 HS1 HS2 A1 A2 v1 v2 HA1 HA2 a1 p1 os1 rs1 e1 L1 nf1 X1 y1 ys1 s1 d1 d1' a2 p2 os2 rs2 e2 L2 nf2 X2 y2 ys2 s2 d2 d2').
Qed.
Print Assumptions C82_scores_order_classifiers.

(** Up to 2097152 samples a score of 1 means that every answer is right. *)
Theorem C82_score_one : forall (R : rnd) g_ok f_ok (S : sch) (A : algo R) (vw : aview A) a p os rs e e1 e2 L nf X y ys v,
  rnd_ok R g_ok f_ok -> sch_ok S -> tsetlini_algo R A vw -> clf_created a p -> clf_history S A vw p os rs e ->
  clf_dims_of os rs = Some (L, nf) ->
  X <> [] -> Forall (v_phys vw) X -> Forall (v_ok vw nf) X -> length y = length X -> Z.of_nat (length X) <= 2097152 ->
  clf_predict S A e X = Ret (Right ys, e1) -> clf_evaluate S A e X y = Ret (Right v, e2) -> (v = f32_one <-> ys = y).
Proof. intros * HR HS HA. exact (score_one g_ok f_ok HR S HS A vw HA a p os rs e e1 e2 L nf X y ys v). Qed.
Print Assumptions C82_score_one.

(** Without the bound this is false: for every trained classifier and every size of 67108864 or more there is a data set of that size on
    which it scores exactly 1 although one of its answers is wrong. *)
Theorem C82_score_one_large_refuted : forall (R : rnd) g_ok f_ok (S : sch) (A : algo R) (vw : aview A) a p os rs e L nf x m,
  67108864 <= Z.of_nat m <= int_max ->
  rnd_ok R g_ok f_ok -> sch_ok S -> tsetlini_algo R A vw -> clf_created a p -> clf_history S A vw p os rs e ->
  clf_dims_of os rs = Some (L, nf) -> v_phys vw x -> v_ok vw nf x ->
  let X := replicate m x in
  exists y ys e1 e2, clf_predict S A e X = Ret (Right ys, e1) /\ length y = length X /\ ys <> y /\ clf_evaluate S A e X y = Ret (Right f32_one, e2).
Proof. intros * Hm HR HS HA. exact (score_one_large g_ok f_ok HR S HS A vw HA a p os rs e L nf x m Hm). Qed.
Print Assumptions C82_score_one_large_refuted.

Example C82_example : exists e, clf_history toy_sch CL (cl_view toy) toy_clf_params (toy_clf_ops CL toy_X) (toy_clf_res [0; 1; 0; 0] [0; 1; 1; 0]) e /\
  clf_dims_of (toy_clf_ops CL toy_X) (toy_clf_res [0; 1; 0; 0] [0; 1; 1; 0]) = Some (2%nat, 3%nat) /\ Forall (v_ok (cl_view toy) 3) toy_X /\
  results (clf_predict toy_sch CL e toy_X) = Some (Right [0; 1; 1; 0]) /\
  results (clf_evaluate toy_sch CL e toy_X [0; 1; 1; 1]) = Some (Right f32_34) /\
  results (clf_evaluate toy_sch CL e toy_X [0; 1; 1; 0]) = Some (Right f32_one) /\
  agreements [0; 1; 1; 0] [0; 1; 1; 1] = 3%nat /\ agreements [0; 1; 1; 0] [0; 1; 1; 0] = 4%nat /\ f_lt f32_34 f32_one = true.
Proof.
  destruct C10_example as (e & H1 & H2 & H3 & H4 & H5 & H6 & _). exists e.
  split; [exact H1|]. split; [exact H2|]. split; [exact H3|]. split; [exact H4|]. split; [exact H5|]. split; [exact H6|].
  split; [reflexivity|]. split; reflexivity.
Qed.
