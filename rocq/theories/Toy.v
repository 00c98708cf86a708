(** * A small concrete instance of the sources of randomness and of the scheduler, used by the examples that show
      that hypotheses of property theorems are met. *)
From Verif Require Export PropFacts.
From Coq Require Import Permutation.
From stdpp Require Import list.
Local Open Scope Z_scope.

(** linear congruential generator; float draws k/8 for k in 1..8; shuffling reverses the order *)
Definition toy_next (g : Z) : Z * Z := let g' := (1664525 * g + 1013904223) mod 4294967296 in (g' / 65536, g').
Definition toy_float (k : Z) : float32 := f32_div (f32_of_Z (1 + k mod 8)) (f32_of_Z 8).
Definition toy : rnd := {|
  eG := Z; g_init z := z mod 4294967296; g_next := toy_next;
  eF := Z; f_init z := z mod 8; f_next f := (toy_float (f / 3), (5 * f + 7) mod 1000);
  shuf g n := (rev (seq 0 n), g);
  ltr := true; tfuel := 200; bm1 _ := f32_one; bm2 _ := f32_half |}.
(** iterations of a parallel loop take effect in reverse order every second time *)
Definition toy_sch : sch := {|
  eS := bool; s_init := false;
  sched s _ b e := (if s then rev (seq b (e - b)) else seq b (e - b), negb s) |}.
Definition toy_sch2 : sch := {| eS := unit; s_init := tt; sched s _ b e := (rev (seq b (e - b)), tt) |}.

Definition toy_g (g : Z) : Prop := 0 <= g < 4294967296.
Definition toy_f (f : Z) : Prop := True.
Lemma toy_ok : rnd_ok toy toy_g toy_f.
Proof.
  constructor.
  - intros z. unfold toy_g. cbn. apply Z.mod_pos_bound. lia.
  - intros g Hg. cbn. unfold toy_next, toy_g in *. cbn [fst snd].
    pose proof (Z.mod_pos_bound (1664525 * g + 1013904223) 4294967296 ltac:(lia)) as H.
    split; [|done]. split; [apply Z.div_pos; lia|]. apply Z.div_lt_upper_bound; lia.
  - done.
  - intros f _. cbn. unfold toy_float. pose proof (Z.mod_pos_bound (f / 3) 8 ltac:(lia)) as H.
    assert (f / 3 mod 8 ∈ [0; 1; 2; 3; 4; 5; 6; 7]) as Hin.
    { rewrite !elem_of_cons, elem_of_nil. lia. }
    revert Hin. generalize (f / 3 mod 8). clear. intros z Hin.
    rewrite !elem_of_cons, elem_of_nil in Hin. split; [|split; [|done]]; destruct_or! Hin; try done; subst z; vm_compute; reflexivity.
  - intros g n Hg. cbn. split; [|done]. apply Permutation_sym, Permutation_rev.
Qed.
Lemma toy_sch_ok : sch_ok toy_sch.
Proof. intros [] nj b e; cbn; [apply Permutation_sym, Permutation_rev|done]. Qed.
Lemma toy_sch2_ok : sch_ok toy_sch2.
Proof. intros [] nj b e; cbn; apply Permutation_sym, Permutation_rev. Qed.

(** user arguments and the parameter sets the factories make from them *)
Definition toy_clf_args : clf_args := ClfArgs 4 10 (f32_of_Z 3) 5 true 7 true 2 false "auto" 16 (Some 42).
Definition toy_reg_args : reg_args := RegArgs 4 10 (f32_of_Z 3) 5 true 7 true 2 false "auto" 16 "MSE" (S754_zero false) false (Some 42).
Definition params_of (o : outcome (either params)) : params := match o with Ret (Right p) => p | _ => ∅ end.
Definition toy_clf_params : params := params_of (make_classifier_params_from_args 4 99 toy_clf_args).
Definition toy_reg_params : params := params_of (make_regressor_params_from_args 4 99 toy_reg_args).

(** ** Concrete histories *)
Definition results {T E} (o : outcome (T * E)) : option T := match o with Ret (r, _) => Some r | _ => None end.
Lemma results_ret {T E} (o : outcome (T * E)) rs : results o = Some rs -> exists e, o = Ret (rs, e).
Proof. destruct o as [[r e]| | |]; cbn; try done. intros [= ->]. by exists e. Qed.

(** exclusive or of the first two features, the third one is noise; and a count of ones *)
Definition toy_X : list (list Z) := [[0; 0; 1]; [0; 1; 1]; [1; 0; 0]; [1; 1; 0]].
Definition toy_y : list Z := [0; 1; 1; 0].
Definition toy_bits (x : list Z) : bit_vector :=
  BV (length x) [fold_right (fun v acc => (2 * acc + (if Z.eqb v 0 then 0 else 1))%N) 0%N x].
Definition toy_B : list bit_vector := map toy_bits toy_X.
Definition toy_ry : list Z := [1; 2; 1; 5].
Definition toy_clf_ops {R} (A : algo R) (X : list (a_smp A)) : list (clf_op A) :=
  [CPredict A X; CFit A X toy_y 0 3; CPredict A X; CPartialFit A X [0; 1; 2; 0] 0 1; CPartialFit A X toy_y 0 2; CPredict A X; CPredict A []].
Definition toy_reg_ops {R} (A : algo R) (X : list (a_smp A)) : list (reg_op A) :=
  [RPredict A X; RFit A X toy_ry 3; RPredict A X; RPartialFit A X [0; 1; 9; 0] 1; RPartialFit A X toy_ry 2; RPredict A X; RPredict A []].
Definition toy_clf_res (y1 y2 : list Z) : list clf_res :=
  [CRLabels (Left S_NOT_FITTED_ERROR); CRStatus S_OK; CRLabels (Right y1); CRStatus S_VALUE_ERROR; CRStatus S_OK; CRLabels (Right y2);
   CRLabels (Left S_VALUE_ERROR)].
Definition toy_reg_res (y1 y2 : list Z) : list reg_res :=
  [RRResps (Left S_NOT_FITTED_ERROR); RRStatus S_OK; RRResps (Right y1); RRStatus S_VALUE_ERROR; RRStatus S_OK; RRResps (Right y2);
   RRResps (Left S_VALUE_ERROR)].
Definition toy_a : clf_args := clf_norm 4 99 toy_clf_args.
Definition toy_ra : reg_args := reg_norm 4 99 toy_reg_args.
Lemma toy_clf_typed : clf_typed toy_clf_args.
Proof. by constructor. Qed.
Lemma toy_reg_typed : reg_typed toy_reg_args.
Proof. by constructor. Qed.
Lemma toy_clf_created : clf_created toy_a toy_clf_params.
Proof. apply clf_factory_created; [apply toy_clf_typed|vm_compute; reflexivity]. Qed.
Lemma toy_reg_created : reg_created toy_ra toy_reg_params.
Proof. apply reg_factory_created; [apply toy_reg_typed|vm_compute; reflexivity]. Qed.
Lemma toy_bits_phys : Forall bits_phys toy_B.
Proof. repeat (constructor; [split; [reflexivity|repeat (constructor; [apply block_ok_lt; vm_compute; reflexivity|]); constructor]|]); constructor. Qed.
Lemma toy_bits_ok : Forall (bits_ok 3) toy_B.
Proof.
  pose proof toy_bits_phys as H. rewrite Forall_forall in H |- *. intros b Hb. split; [|split; [by apply H|]].
  - unfold toy_B, toy_X in Hb. cbn in Hb. rewrite !elem_of_cons, elem_of_nil in Hb. destruct_or! Hb; by subst.
  - unfold toy_B, toy_X in Hb. cbn in Hb. rewrite !elem_of_cons, elem_of_nil in Hb. intros q Hq. 
    destruct (decide (q < 64)%nat) as [Hq'|].
    + destruct_or! Hb; try done; subst; do 64 (destruct q as [|q]; [first [lia|reflexivity]|]); lia.
    + unfold bv_bit. assert (1 <= q / 64)%nat as Hd by (apply Nat.div_le_lower_bound; lia).
      destruct (q / 64)%nat as [|d]; [lia|]. destruct_or! Hb; try done; subst; cbn; by rewrite ?lookup_nil.
Qed.
Lemma toy_classic_clf : exists e, clf_history toy_sch (classic toy) (cl_view toy) toy_clf_params (toy_clf_ops (classic toy) toy_X) (toy_clf_res [0; 1; 0; 0] [0; 1; 1; 0]) e.
Proof.
  destruct (results_ret (clf_run toy_sch (classic toy) (construct toy_sch (classic toy) toy_clf_params) (toy_clf_ops (classic toy) toy_X)) (toy_clf_res [0; 1; 0; 0] [0; 1; 1; 0])) as [e E].
  - vm_compute. reflexivity.
  - exists e. split; [|exact E]. repeat (constructor; [cbn; repeat constructor|]). constructor.
Qed.
Lemma toy_bitwise_clf : exists e, clf_history toy_sch (Algo.bitwise toy) (bw_view toy) toy_clf_params (toy_clf_ops (Algo.bitwise toy) toy_B) (toy_clf_res [0; 1; 1; 0] [0; 1; 1; 0]) e.
Proof.
  destruct (results_ret (clf_run toy_sch (Algo.bitwise toy) (construct toy_sch (Algo.bitwise toy) toy_clf_params) (toy_clf_ops (Algo.bitwise toy) toy_B)) (toy_clf_res [0; 1; 1; 0] [0; 1; 1; 0])) as [e E].
  - vm_compute. reflexivity.
  - exists e. split; [|exact E]. repeat (constructor; [cbn; apply toy_bits_phys || constructor|]). constructor.
Qed.
Lemma toy_classic_reg : exists e, reg_history toy_sch (classic toy) (cl_view toy) toy_reg_params (toy_reg_ops (classic toy) toy_X) (toy_reg_res [0; 2; 0; 3] [0; 2; 0; 4]) e.
Proof.
  destruct (results_ret (reg_run toy_sch (classic toy) (construct toy_sch (classic toy) toy_reg_params) (toy_reg_ops (classic toy) toy_X)) (toy_reg_res [0; 2; 0; 3] [0; 2; 0; 4])) as [e E].
  - vm_compute. reflexivity.
  - exists e. split; [|exact E]. repeat (constructor; [cbn; repeat constructor|]). constructor.
Qed.
Lemma toy_bitwise_reg : exists e, reg_history toy_sch (Algo.bitwise toy) (bw_view toy) toy_reg_params (toy_reg_ops (Algo.bitwise toy) toy_B) (toy_reg_res [1; 2; 1; 0] [0; 1; 0; 0]) e.
Proof.
  destruct (results_ret (reg_run toy_sch (Algo.bitwise toy) (construct toy_sch (Algo.bitwise toy) toy_reg_params) (toy_reg_ops (Algo.bitwise toy) toy_B)) (toy_reg_res [1; 2; 1; 0] [0; 1; 0; 0])) as [e E].
  - vm_compute. reflexivity.
  - exists e. split; [|exact E]. repeat (constructor; [cbn; apply toy_bits_phys || constructor|]). constructor.
Qed.
(** what the histories above fitted the estimators with *)
Lemma toy_classic_clf_dims y1 y2 : clf_dims_of (toy_clf_ops (classic toy) toy_X) (toy_clf_res y1 y2) = Some (2%nat, 3%nat).
Proof. reflexivity. Qed.
Lemma toy_bitwise_clf_dims y1 y2 : clf_dims_of (toy_clf_ops (Algo.bitwise toy) toy_B) (toy_clf_res y1 y2) = Some (2%nat, 3%nat).
Proof. reflexivity. Qed.
Lemma toy_classic_reg_dims y1 y2 : reg_dims_of (toy_reg_ops (classic toy) toy_X) (toy_reg_res y1 y2) = Some 3%nat.
Proof. reflexivity. Qed.
Lemma toy_bitwise_reg_dims y1 y2 : reg_dims_of (toy_reg_ops (Algo.bitwise toy) toy_B) (toy_reg_res y1 y2) = Some 3%nat.
Proof. reflexivity. Qed.
