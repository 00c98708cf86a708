(** * Facts about the concrete histories of Toy.v, for the examples beside the property theorems. *)
From Verif Require Export Toy.
From stdpp Require Import list.
Local Open Scope Z_scope.

(** run, then look at the estimator *)
Definition probe {T E U} (o : outcome (T * E)) (f : E -> U) : option (T * U) := match o with Ret (r, e) => Some (r, f e) | _ => None end.
Lemma probe_ret {T E U} (o : outcome (T * E)) (f : E -> U) rs u : probe o f = Some (rs, u) -> exists e, o = Ret (rs, e) /\ f e = u.
Proof. destruct o as [[r e]| | |]; cbn; try done. intros [= -> <-]. by exists e. Qed.

Notation CL := (classic toy).
Notation BW := (Algo.bitwise toy).
Definition cl_start := construct toy_sch CL toy_clf_params.
Definition bw_start := construct toy_sch BW toy_clf_params.
Definition rcl_start := construct toy_sch CL toy_reg_params.
Definition rbw_start := construct toy_sch BW toy_reg_params.
Lemma cl_ops_phys os : Forall (clf_op_phys CL (cl_view toy)) os.
Proof. apply Forall_forall. intros o _. destruct o; cbn; try done; by apply Forall_true. Qed.
Lemma rcl_ops_phys os : Forall (reg_op_phys CL (cl_view toy)) os.
Proof. apply Forall_forall. intros o _. destruct o; cbn; try done; by apply Forall_true. Qed.
Lemma cl_probe {U} os rs (f : _ -> U) u : probe (clf_run toy_sch CL cl_start os) f = Some (rs, u) ->
  exists e, clf_history toy_sch CL (cl_view toy) toy_clf_params os rs e /\ f e = u.
Proof. intros (e & E & Ef)%probe_ret. exists e. split; [|done]. split; [apply cl_ops_phys|done]. Qed.
Lemma rcl_probe {U} os rs (f : _ -> U) u : probe (reg_run toy_sch CL rcl_start os) f = Some (rs, u) ->
  exists e, reg_history toy_sch CL (cl_view toy) toy_reg_params os rs e /\ f e = u.
Proof. intros (e & E & Ef)%probe_ret. exists e. split; [|done]. split; [apply rcl_ops_phys|done]. Qed.
Lemma bw_probe {U} os rs (f : _ -> U) u : probe (clf_run toy_sch BW bw_start os) f = Some (rs, u) -> Forall (clf_op_phys BW (bw_view toy)) os ->
  exists e, clf_history toy_sch BW (bw_view toy) toy_clf_params os rs e /\ f e = u.
Proof. intros (e & E & Ef)%probe_ret H. exists e. split; [|done]. by split. Qed.
Lemma rbw_probe {U} os rs (f : _ -> U) u : probe (reg_run toy_sch BW rbw_start os) f = Some (rs, u) -> Forall (reg_op_phys BW (bw_view toy)) os ->
  exists e, reg_history toy_sch BW (bw_view toy) toy_reg_params os rs e /\ f e = u.
Proof. intros (e & E & Ef)%probe_ret H. exists e. split; [|done]. by split. Qed.
Lemma bw_ops_phys : Forall (clf_op_phys BW (bw_view toy)) (toy_clf_ops BW toy_B).
Proof. repeat (constructor; [cbn; apply toy_bits_phys || constructor|]). constructor. Qed.
Lemma rbw_ops_phys : Forall (reg_op_phys BW (bw_view toy)) (toy_reg_ops BW toy_B).
Proof. repeat (constructor; [cbn; apply toy_bits_phys || constructor|]). constructor. Qed.

(** C01 *)
Definition toy_matrix : nmatrix := NM 8 4 3 (<[0%nat := 3]> (<[65%nat := 0]> (replicate 256 (-1)))).
Lemma toy_matrix_facts : nm_sized toy_matrix /\ nm_rows toy_matrix = 4%nat /\ dense_ok 3 [1; 0; 1] /\
  satisfied_by_states toy_matrix 3 0 [1; 0; 1] /\ nonempty_states toy_matrix 3 0 /\
  satisfied_by_states toy_matrix 3 1 [1; 0; 1] /\ ~ nonempty_states toy_matrix 3 1 /\ ~ satisfied_by_states toy_matrix 3 0 [1; 1; 1].
Proof.
  split; [split; [vm_compute; lia|vm_compute; reflexivity]|]. split; [done|].
  assert (forall x, x ∈ [[1; 0; 1]; [1; 1; 1]] -> dense_ok 3 x) as Hd.
  { intros x Hx. rewrite !elem_of_cons, elem_of_nil in Hx. destruct_or! Hx; try done; subst; (split; [done|]); repeat (constructor; [auto|]); constructor. }
  assert (dense_ok 3 [1; 0; 1] /\ dense_ok 3 [1; 1; 1]) as [H1 H2] by (split; apply Hd; rewrite !elem_of_cons; auto).
  split; [done|]. rewrite <- !satisfied_states_iff by done. rewrite <- !nonempty_states_iff.
  repeat split; vm_compute; try reflexivity; discriminate.
Qed.
(** C02 *)
Lemma toy_bitwise_polarity : exists e,
  clf_history toy_sch BW (bw_view toy) toy_clf_params (toy_clf_ops BW toy_B) (toy_clf_res [0; 1; 1; 0] [0; 1; 1; 0]) e /\
  bm_wf 64 (ta_pol (e_ta e)) /\ bm_clear_padding 64 (ta_pol (e_ta e)) /\ bm_rows (ta_pol (e_ta e)) = 8%nat /\ bm_cols (ta_pol (e_ta e)) = 3%nat /\ Forall (bits_ok 3) toy_B.
Proof.
  destruct toy_bitwise_clf as [e Hh]. exists e. split; [done|].
  pose proof (clf_bitwise_at (R := toy) toy_g toy_f toy_ok toy_sch toy_sch_ok toy_a _ _ _ e toy_clf_created ltac:(vm_compute; discriminate) Hh) as Hat.
  rewrite toy_bitwise_clf_dims in Hat. destruct Hat as [(_ & _ & Hcore) _]. destruct Hcore as [Hta]. cbn [fst snd] in Hta. destruct Hta as [((Hg & Hw & Hr1 & Hr2) & _ & Er & Ec & Hp & _) _]. cbn [fst snd] in *.
  split; [done|]. split; [done|]. split; [rewrite Hr1, Er; reflexivity|]. split; [by rewrite Hr2, Ec|]. apply toy_bits_ok.
Qed.
(** C03 *)
Definition same_model_b (n nf : nat) (s1 : tastate (a_pol CL)) (s2 : tastate (a_pol BW)) : bool :=
  bool_decide (ta_weights s1 = ta_weights s2) &&
  forallb (fun r => forallb (fun c => eqb (bm_bit 64 (ta_pol s2) r c) (0 <=? nm_cell (ta_matrix s1) r c)) (seq 0 nf)) (seq 0 (2 * n)).
Lemma same_model_b_ok n nf s1 s2 : same_model_b n nf s1 s2 = true -> same_model n nf s1 s2.
Proof.
  unfold same_model_b. intros [H1 H2]%andb_true_iff. split; [by apply bool_decide_eq_true in H1|].
  intros r c Hr Hc. rewrite forallb_forall in H2. specialize (H2 r (proj2 (in_seq (2 * n) 0 r) ltac:(lia))). rewrite forallb_forall in H2.
  specialize (H2 c (proj2 (in_seq nf 0 c) ltac:(lia))). by apply eqb_prop.
Qed.
Lemma toy_same_samples : Forall2 (same_sample 3) toy_X toy_B.
Proof. repeat constructor; intros k Hk; do 3 (destruct k as [|k]; [reflexivity|]); lia. Qed.
Lemma toy_same_models : exists e1 e2,
  clf_history toy_sch CL (cl_view toy) toy_clf_params [CFit CL toy_X toy_y 0 0] [CRStatus S_OK] e1 /\
  clf_history toy_sch2 BW (bw_view toy) toy_clf_params [CFit BW toy_B toy_y 0 0] [CRStatus S_OK] e2 /\
  same_model (2 * Z.to_nat (ca_clauses toy_a / 2)) 3 (e_ta e1) (e_ta e2) /\
  Forall2 (same_sample 3) toy_X toy_B /\
  (exists j k, 0 <= nm_cell (ta_matrix (e_ta e1)) j k) /\ (exists j k, nm_cell (ta_matrix (e_ta e1)) j k < 0).
Proof.
  pose (o1 := clf_run toy_sch CL cl_start [CFit CL toy_X toy_y 0 0]).
  pose (o2 := clf_run toy_sch2 BW (construct toy_sch2 BW toy_clf_params) [CFit BW toy_B toy_y 0 0]).
  destruct (probe_ret o1 (fun e1 => probe o2 (fun e2 => (same_model_b 4 3 (e_ta e1) (e_ta e2),
     0 <=? nm_cell (ta_matrix (e_ta e1)) 0 1, nm_cell (ta_matrix (e_ta e1)) 0 2 <? 0))) [CRStatus S_OK] (Some ([CRStatus S_OK], (true, true, true)))) as (e1 & E1 & H).
  { vm_compute. reflexivity. }
  apply probe_ret in H as (e2 & E2 & [= H1 H2 H3]). exists e1, e2. split; [split; [apply cl_ops_phys|exact E1]|].
  split; [split; [constructor; [apply toy_bits_phys|constructor]|exact E2]|].
  split; [by apply same_model_b_ok|]. split; [apply toy_same_samples|]. split; eexists _, _; [by apply Z.leb_le|by apply Z.ltb_lt].
Qed.
(** C04 - C08 *)
Lemma toy_decision : exists e, clf_history toy_sch CL (cl_view toy) toy_clf_params (toy_clf_ops CL toy_X) (toy_clf_res [0; 1; 0; 0] [0; 1; 1; 0]) e /\
  results (clf_decision1 toy_sch CL e [1; 0; 0]) = Some (Right [-2; -1]).
Proof. apply cl_probe. vm_compute. reflexivity. Qed.
Lemma toy_first_max : first_max [-2; 3; 3; 1] 1 /\ ~ first_max [-2; 3; 3; 1] 2 /\
  exists e, clf_history toy_sch CL (cl_view toy) toy_clf_params (toy_clf_ops CL toy_X) (toy_clf_res [0; 1; 0; 0] [0; 1; 1; 0]) e /\
  results (clf_predict1 toy_sch CL e [1; 0; 0]) = Some (Right 1).
Proof.
  assert (first_max [-2; 3; 3; 1] 1) as H by (apply (argmax_spec [-2; 3; 3; 1]); done).
  split; [done|]. split; [intros H'; by pose proof (first_max_unique _ _ _ H H')|]. apply cl_probe. vm_compute. reflexivity.
Qed.
Lemma toy_batch : exists e, clf_history toy_sch BW (bw_view toy) toy_clf_params (toy_clf_ops BW toy_B) (toy_clf_res [0; 1; 1; 0] [0; 1; 1; 0]) e /\
  results (clf_predict toy_sch BW e toy_B) = Some (Right [0; 1; 1; 0]) /\
  map (fun b => results (clf_predict1 toy_sch BW e b)) toy_B = map (fun y => Some (Right y)) [0; 1; 1; 0].
Proof.
  destruct (bw_probe (toy_clf_ops BW toy_B) (toy_clf_res [0; 1; 1; 0] [0; 1; 1; 0])
    (fun e => (results (clf_predict toy_sch BW e toy_B), map (fun b => results (clf_predict1 toy_sch BW e b)) toy_B))
    (Some (Right [0; 1; 1; 0]), map (fun y => Some (Right y)) [0; 1; 1; 0])) as (e & Hh & H); [vm_compute; reflexivity|apply bw_ops_phys|].
  exists e. split; [exact Hh|]. split; [exact (f_equal fst H)|exact (f_equal snd H)].
Qed.
Lemma toy_response : exists e, reg_history toy_sch CL (cl_view toy) toy_reg_params (toy_reg_ops CL toy_X) (toy_reg_res [0; 2; 0; 3] [0; 2; 0; 4]) e /\
  results (reg_predict1 toy_sch CL e [1; 1; 0]) = Some (Right 4).
Proof. apply rcl_probe. vm_compute. reflexivity. Qed.
Lemma toy_tables : exists e, clf_history toy_sch CL (cl_view toy) toy_clf_params (toy_clf_ops CL toy_X) (toy_clf_res [0; 1; 0; 0] [0; 1; 1; 0]) e /\
  results (clf_predict1 toy_sch CL e [1; 0]) = Some (Left S_VALUE_ERROR) /\
  results (clf_predict1 toy_sch CL e [1; 0; 2]) = Some (Left S_VALUE_ERROR) /\
  results (clf_predict toy_sch CL e []) = Some (Left S_VALUE_ERROR) /\
  results (clf_predict1 toy_sch CL (construct toy_sch CL toy_clf_params) [1; 0; 0]) = Some (Left S_NOT_FITTED_ERROR).
Proof.
  destruct (cl_probe (toy_clf_ops CL toy_X) (toy_clf_res [0; 1; 0; 0] [0; 1; 1; 0])
    (fun e => [results (clf_predict1 toy_sch CL e [1; 0]); results (clf_predict1 toy_sch CL e [1; 0; 2])])
    [Some (Left S_VALUE_ERROR); Some (Left S_VALUE_ERROR)]) as (e & Hh & [= H1 H2]); [vm_compute; reflexivity|].
  exists e. split; [exact Hh|]. split; [exact H1|]. split; [exact H2|].
  split; [|vm_compute; reflexivity].
  destruct (clf_predict_table (R := toy) toy_g toy_f toy_ok toy_sch toy_sch_ok CL (cl_view toy) (algo_classic toy) toy_a toy_clf_params _ _ e toy_clf_created Hh [] (Forall_nil_2 _))
    as (r & e' & -> & H). cbn [results]. destruct r as [[]|]; try done; cbn in H.
  - exfalso. apply H. unfold toy_clf_res. right. left.
  - destruct H as [_ H]. destruct (H 3%nat) as [[] _]; [|done]. by exists 2%nat.
Qed.
(** C09 *)
Lemma no_evaluate_ok {R} (S : sch) (A : algo R) (vw : aview A) d e os :
  Forall (fun o => match o with CEvaluate _ _ _ => False | _ => True end) os -> evaluates_ok S A vw d e os.
Proof. intros H pre X y post rs e' L nf -> _ _. by apply Forall_app in H as [_ [[] _]%Forall_cons]. Qed.
Lemma toy_fewer : evaluates_ok toy_sch CL (cl_view toy) None cl_start (toy_clf_ops CL toy_X) /\
  fewer_reads (clf_const CL) (toy_clf_ops CL toy_X) (toy_clf_res [0; 1; 0; 0] [0; 1; 1; 0])
    [CFit CL toy_X toy_y 0 3; CPartialFit CL toy_X [0; 1; 2; 0] 0 1; CPartialFit CL toy_X toy_y 0 2] [CRStatus S_OK; CRStatus S_VALUE_ERROR; CRStatus S_OK].
Proof.
  split; [|repeat (apply fr_nil || apply fr_keep || (apply fr_drop; [exact Logic.I|]))].
  apply no_evaluate_ok. repeat constructor.
Qed.
