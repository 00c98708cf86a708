(** * The documented constraints on estimator parameters (specification used by C32 and C33). *)
From Verif Require Import Base Floats Params ParamFacts FloatFacts.
From Coq Require Import Reals Lra.
From stdpp Require Import list.
Local Open Scope Z_scope.
(** the documented constraints on arguments *)
Definition clf_documented (a : clf_args) : Prop :=
  (ca_n_jobs a = -1 \/ 1 <= ca_n_jobs a) /\ 1 <= ca_states a /\ (is_finite_sf (ca_s a) = true /\ (1 <= val (ca_s a))%R) /\
  1 <= ca_clauses a /\ ca_clauses a mod 4 = 0 /\ 1 <= ca_threshold a /\ 1 <= ca_max_weight a /\
  ca_counting a ∈ ["auto"; "int8"; "int16"; "int32"]%string /\ ca_tile a ∈ [16; 32; 64; 128].
Definition reg_documented (a : reg_args) : Prop :=
  (ra_n_jobs a = -1 \/ 1 <= ra_n_jobs a) /\ 1 <= ra_states a /\ (is_finite_sf (ra_s a) = true /\ (1 <= val (ra_s a))%R) /\
  1 <= ra_clauses a /\ ra_clauses a mod 2 = 0 /\ 1 <= ra_threshold a /\ 1 <= ra_max_weight a /\
  ra_counting a ∈ ["auto"; "int8"; "int16"; "int32"]%string /\ ra_tile a ∈ [16; 32; 64; 128] /\
  ra_loss a ∈ ["MSE"; "L2"; "MAE"; "L1"; "berHu"; "L1+2"]%string.

(** the checks of the pipeline decide exactly this *)
Lemma clf_documented_iff a : clf_typed a -> clf_documented a <-> clf_acceptable a.
Proof.
  intros Ht. pose proof (s_check_iff (ca_s a) (ct_real _ Ht)) as Hs. unfold clf_documented. split.
  - intros (H1 & H2 & H3 & H4 & H5 & H6 & H7 & H8 & H9). constructor; try done.
    + by apply Hs.
    + unfold counting_known. set_solver.
    + unfold tile_known. set_solver.
  - intros [H1 H2 H3 [H4 H5] H6 H7 H8 H9]. apply Hs in H3.
    repeat (split; [done|]). split; [unfold counting_known in H8; rewrite !elem_of_cons; tauto|unfold tile_known in H9; rewrite !elem_of_cons; tauto].
Qed.
Lemma reg_documented_iff a : reg_typed a -> reg_documented a <-> reg_acceptable a.
Proof.
  intros Ht. pose proof (s_check_iff (ra_s a) (rt_real _ Ht)) as Hs. unfold reg_documented. split.
  - intros (H1 & H2 & H3 & H4 & H5 & H6 & H7 & H8 & H9 & H10). constructor; try done.
    + by apply Hs.
    + unfold counting_known. set_solver.
    + unfold loss_known. set_solver.
    + unfold tile_known. set_solver.
  - intros [H1 H2 H3 [H4 H5] H6 H7 H8 H9 H10]. apply Hs in H3.
    repeat (split; [done|]). split; [unfold counting_known in H8; rewrite !elem_of_cons; tauto|]. split; [unfold tile_known in H10; rewrite !elem_of_cons; tauto|].
    unfold loss_known in H9; rewrite !elem_of_cons; tauto.
Qed.
