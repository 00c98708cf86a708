(** * Concrete instances for the examples beside the floating point and totality properties. *)
From Verif Require Export ToyFacts ToyTrain.
From Verif Require Import FloatProps TotalFacts TotalProps.
From Coq Require Import Permutation Reals.
From stdpp Require Import list.
Local Open Scope Z_scope.

(** a counting generator: from any state, 200 draws visit every residue of a small modulus *)
Definition cnt : rnd := {|
  eG := Z; g_init z := z mod 4294967296; g_next g := (g, (g + 1) mod 4294967296);
  eF := Z; f_init z := z mod 8; f_next f := (toy_float (f / 3), (5 * f + 7) mod 1000);
  shuf g n := (rev (seq 0 n), g);
  ltr := true; tfuel := 200; bm1 _ := f32_one; bm2 _ := f32_half |}.
Definition cnt_g (g : Z) : Prop := 0 <= g < 4294967296.
Lemma cnt_ok : rnd_ok cnt cnt_g toy_f.
Proof.
  constructor.
  - intros z. unfold cnt_g. cbn. apply Z.mod_pos_bound. lia.
  - intros g Hg. cbn. unfold cnt_g in *. split; [done|]. apply Z.mod_pos_bound. lia.
  - done.
  - exact (f_next_ok _ _ _ toy_ok).
  - exact (fun g n H => conj (proj1 (shuf_ok _ _ _ toy_ok g n H)) H).
Qed.
Lemma cnt_draw i g : 0 <= g < 4294967296 -> g_draw cnt g i = (g + Z.of_nat i) mod 4294967296.
Proof.
  revert g. induction i as [|i IH]; intros g Hg; cbn [g_draw].
  - cbn. rewrite Z.add_0_r, Z.mod_small by lia. done.
  - rewrite IH by (cbn; apply Z.mod_pos_bound; lia). cbn [g_next cnt snd]. rewrite Z.add_mod_idemp_l by lia. f_equal. lia.
Qed.
Lemma cnt_fair n : (n <= 100)%nat -> fair cnt cnt_g n.
Proof.
  intros Hn g Hg k Hk. unfold cnt_g in Hg. change (tfuel cnt) with 200%nat.
  (** start at g, or at 0 when the counter wraps within 100 draws *)
  assert (exists d, 0 <= d < 100 /\ (g + d) mod 4294967296 + 100 <= 4294967296 /\ 0 <= (g + d) mod 4294967296) as (d & Hd & Hb & Hb0).
  { destruct (decide (g + 100 <= 4294967296)).
    - exists 0. rewrite Z.add_0_r, Z.mod_small by lia. lia.
    - exists (4294967296 - g). replace (g + (4294967296 - g)) with 4294967296 by lia. rewrite Z_mod_same_full. lia. }
  set (b := (g + d) mod 4294967296) in *.
  set (t := (Z.of_nat k - b) mod Z.of_nat n).
  assert (0 <= t < Z.of_nat n) as Ht by (apply Z.mod_pos_bound; lia).
  exists (Z.to_nat (d + t)). split; [lia|]. rewrite cnt_draw, Z2Nat.id by lia.
  replace (g + (d + t)) with ((g + d) + t) by lia. rewrite <- Z.add_mod_idemp_l by lia. fold b. rewrite (Z.mod_small (b + t)) by lia.
  unfold t. rewrite Z.add_mod_idemp_r by lia. replace (b + (Z.of_nat k - b)) with (Z.of_nat k) by lia. apply Z.mod_small. lia.
Qed.
Lemma cnt_tossable n : (n <= 100)%nat -> tossable (R := cnt) cnt_g n.
Proof. intros H. split; [lia|by apply cnt_fair]. Qed.

Lemma toy_dense : Forall (dense_ok 3) toy_X.
Proof. repeat (constructor; [split; [reflexivity|repeat (constructor; [auto|]); constructor]|]). constructor. Qed.

(** C10 *)
Definition f32_34 : float32 := f32_div (f32_of_Z 3) (f32_of_Z 4).
Lemma toy_evaluate : exists e, clf_history toy_sch CL (cl_view toy) toy_clf_params (toy_clf_ops CL toy_X) (toy_clf_res [0; 1; 0; 0] [0; 1; 1; 0]) e /\
  clf_dims_of (toy_clf_ops CL toy_X) (toy_clf_res [0; 1; 0; 0] [0; 1; 1; 0]) = Some (2%nat, 3%nat) /\ Forall (v_ok (cl_view toy) 3) toy_X /\
  results (clf_predict toy_sch CL e toy_X) = Some (Right [0; 1; 1; 0]) /\
  results (clf_evaluate toy_sch CL e toy_X [0; 1; 1; 1]) = Some (Right f32_34) /\
  results (clf_evaluate toy_sch CL e toy_X [0; 1; 1; 0]) = Some (Right f32_one) /\
  results (clf_evaluate toy_sch CL e toy_X [1; 0; 0; 3]) = Some (Right (S754_zero false)).
Proof.
  destruct (cl_probe (toy_clf_ops CL toy_X) (toy_clf_res [0; 1; 0; 0] [0; 1; 1; 0])
    (fun e => (results (clf_predict toy_sch CL e toy_X), map (fun y => results (clf_evaluate toy_sch CL e toy_X y)) [[0; 1; 1; 1]; [0; 1; 1; 0]; [1; 0; 0; 3]]))
    (Some (Right [0; 1; 1; 0]), [Some (Right f32_34); Some (Right f32_one); Some (Right (S754_zero false))])) as (e & Hh & H); [vm_compute; reflexivity|].
  exists e. split; [exact Hh|]. split; [vm_compute; reflexivity|]. split; [apply toy_dense|]. split; [exact (f_equal fst H)|].
  apply (f_equal snd) in H. cbn [snd map] in H. injection H as H1 H2 H3. done.
Qed.
(** C19: with threshold 1 votes saturate *)
Definition sat_args : clf_args := ClfArgs 8 20 (f32_of_Z 3) 1 false 7 true 2 false "auto" 16 (Some 42).
Definition sat_params : params := params_of (make_classifier_params_from_args 4 99 sat_args).
Definition sat_a : clf_args := clf_norm 4 99 sat_args.
Definition sat_votes (e : est (a_pol CL) (eS toy_sch) Z Z) (x : list Z) (l : nat) : Z :=
  clamp (- 1) 1 (signed_votes 4 (fun i => fires (cl_view toy) 3 (e_ta e) x (l * 4 + i)) (fun i => weight_of (ta_weights (e_ta e)) (l * 4 + i))).
Lemma sat_typed : clf_typed sat_args.
Proof. by constructor. Qed.
Lemma sat_created : clf_created sat_a sat_params.
Proof. apply clf_factory_created; [apply sat_typed|vm_compute; reflexivity]. Qed.
Lemma sat_example : exists e, clf_history toy_sch CL (cl_view toy) sat_params [CFit CL toy_X toy_y 0 3] [CRStatus S_OK] e /\
  clf_dims_of [CFit CL toy_X toy_y 0 3] [CRStatus S_OK] = Some (2%nat, 3%nat) /\
  sat_votes e [0; 1; 1] 1 = 1 /\ results (clf_partial_fit toy_sch CL e [[0; 1; 1]] [1] 0 1) = Some S_OK /\
  sat_votes e [1; 0; 0] 0 = -1 /\ results (clf_partial_fit toy_sch CL e [[1; 0; 0]] [1] 0 1) = Some S_OK.
Proof.
  destruct (probe_ret (clf_run toy_sch CL (construct toy_sch CL sat_params) [CFit CL toy_X toy_y 0 3])
    (fun e => (sat_votes e [0; 1; 1] 1, results (clf_partial_fit toy_sch CL e [[0; 1; 1]] [1] 0 1), sat_votes e [1; 0; 0] 0,
       results (clf_partial_fit toy_sch CL e [[1; 0; 0]] [1] 0 1))) [CRStatus S_OK] (1, Some S_OK, -1, Some S_OK)) as (e & E & H); [vm_compute; reflexivity|].
  exists e. split; [split; [apply cl_ops_phys|exact E]|]. split; [reflexivity|].
  split; [exact (f_equal (fun q => q.1.1.1) H)|]. split; [exact (f_equal (fun q => q.1.1.2) H)|].
  split; [exact (f_equal (fun q => q.1.2) H)|exact (f_equal (fun q => q.2) H)].
Qed.
(** C39 *)
Lemma toy_tosses : exists ct, ct_make (f32_div f32_one (f32_of_Z 3)) 10 = Ret ct /\ ct_floor ct = 3 /\ 0 < ct_thr ct /\ ct_len 10 ct /\
  results (ct_tosses_ toy ct (replicate 10 7) 5) = Some [1; 0; 0; 0; 0; 0; 1; 1; 1; 0].
Proof. eexists. split; [vm_compute; reflexivity|]. repeat split; vm_compute; reflexivity. Qed.
(** C43 *)
Lemma toy_hits : exists loss, make_loss_fn (ra_loss toy_ra) (ra_C1 toy_ra) = Ret loss /\
  results (feedback_hits (R := toy) (ra_box_muller toy_ra) (ra_clauses toy_ra / 2) (loss (f32_div (f32_of_Z (-4)) (f32_of_Z (ra_threshold toy_ra)))) 5) = Some 1.
Proof. eexists. split; [reflexivity|]. vm_compute. reflexivity. Qed.
Lemma toy_loss_bounds : loss_bounds toy_ra.
Proof. by split. Qed.
(** C47: the counting generator and the toy data meet every hypothesis *)
Lemma cnt_good : good_samples (classic cnt) (cl_view cnt) 3 toy_X toy_y /\ Forall (fun v => 0 <= v < int_max) toy_y /\ 2 <= n_labels toy_y 0 /\
  ca_threshold toy_a < 1073741824 /\ sizes_fit (n_labels toy_y 0 * ca_clauses toy_a) 3.
Proof.
  split; [split; [done|split; [done|split; [by repeat constructor|apply toy_dense]]]|].
  split; [repeat (constructor; [unfold int_max; lia|]); constructor|]. vm_compute. split; [discriminate|]. split; reflexivity.
Qed.
Lemma cnt_history : clf_history toy_sch (classic cnt) (cl_view cnt) toy_clf_params [] [] (construct toy_sch (classic cnt) toy_clf_params).
Proof. split; [constructor|reflexivity]. Qed.
