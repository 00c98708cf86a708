(** * Property theorems about comparing estimators with ==: C54.
    Reading guide: [clf_eqb]/[reg_eqb] (Equality.v) model operator== of the four state types; the two numbers are the addresses of the
    compared objects, and [tsetlini_equality] ties the classic and the bitwise estimator to the comparison of its polarity matrix.
    [clf_made]/[reg_made]: parameters returned by a factory; [clf_history S A vw p os rs e]: the calls [os] on a new estimator with
    parameters [p] returned [rs] and left [e].  The generators are the library's own ([mt_rnd]). *)
From Verif Require Import EqualityProps ToyTrain ToyDefects PropsState.
From stdpp Require Import list.
Local Open Scope Z_scope.

(** ** C54: estimators that compare equal answer every further sequence of calls alike, and still compare equal afterwards *)
Theorem C54_equal_classifiers : forall sh l fuel b1 b2, shuffle_ok sh -> forall (A : algo (mt_rnd sh l fuel b1 b2)) vw peq, tsetlini_equality _ A vw peq ->
  forall S, sch_ok S -> forall p1 p2 os1 rs1 os2 rs2 e1 e2 o1 o2, clf_made p1 -> clf_made p2 ->
  clf_history S A vw p1 os1 rs1 e1 -> clf_history S A vw p2 os2 rs2 e2 -> o1 <> o2 -> clf_eqb peq o1 o2 e1 e2 = true ->
  forall more, Forall (clf_op_phys A vw) more -> evaluates_ok S A vw (clf_dims_of os1 rs1) e1 more ->
    orel (fun r1 r2 => r2.1 = r1.1 /\ clf_eqb peq o1 o2 r1.2 r2.2 = true) (clf_run S A e1 more) (clf_run S A e2 more).
Proof.
  intros sh l fuel b1 b2 Hsh A vw peq HE S HS p1 p2 os1 rs1 os2 rs2 e1 e2 o1 o2 Hm1 Hm2 Hh1 Hh2 Ho Heq more Hph Hev.
  destruct (clf_made_facts p1 Hm1) as ((a1 & Ha1) & _). destruct (clf_made_facts p2 Hm2) as ((a2 & Ha2) & _).
  exact (clf_equal_future sh l fuel b1 b2 Hsh A vw peq HE S HS a1 a2 p1 p2 os1 rs1 os2 rs2 e1 e2 o1 o2 more Ha1 Ha2 Hh1 Hh2 Ho Heq Hph Hev).
Qed.
Print Assumptions C54_equal_classifiers.
Theorem C54_equal_regressors : forall sh l fuel b1 b2, shuffle_ok sh -> forall (A : algo (mt_rnd sh l fuel b1 b2)) vw peq, tsetlini_equality _ A vw peq ->
  forall S, sch_ok S -> forall p1 p2 os1 rs1 os2 rs2 e1 e2 o1 o2, reg_made p1 -> reg_made p2 ->
  reg_history S A vw p1 os1 rs1 e1 -> reg_history S A vw p2 os2 rs2 e2 -> o1 <> o2 -> reg_eqb peq o1 o2 e1 e2 = true ->
  forall more, Forall (reg_op_phys A vw) more ->
    orel (fun r1 r2 => r2.1 = r1.1 /\ reg_eqb peq o1 o2 r1.2 r2.2 = true) (reg_run S A e1 more) (reg_run S A e2 more).
Proof.
  intros sh l fuel b1 b2 Hsh A vw peq HE S HS p1 p2 os1 rs1 os2 rs2 e1 e2 o1 o2 Hm1 Hm2 Hh1 Hh2 Ho Heq more Hph.
  destruct (reg_made_facts p1 Hm1) as ((a1 & Ha1) & _). destruct (reg_made_facts p2 Hm2) as ((a2 & Ha2) & _).
  exact (reg_equal_future sh l fuel b1 b2 Hsh A vw peq HE S HS a1 a2 p1 p2 os1 rs1 os2 rs2 e1 e2 o1 o2 more Ha1 Ha2 Hh1 Hh2 Ho Heq Hph).
Qed.
Print Assumptions C54_equal_regressors.
(** equality is not vacuous: the same calls on two estimators with the same parameters leave equal estimators ... *)
Theorem C54_same_calls_classifier : forall sh l fuel b1 b2, shuffle_ok sh -> forall (A : algo (mt_rnd sh l fuel b1 b2)) vw peq, tsetlini_equality _ A vw peq ->
  forall S, sch_ok S -> forall p os rs e rs' e' o1 o2, clf_made p -> (forall k, p !! k <> Some (PReal S754_nan)) ->
  clf_history S A vw p os rs e -> clf_history S A vw p os rs' e' -> clf_eqb peq o1 o2 e e' = true.
Proof.
  intros sh l fuel b1 b2 Hsh A vw peq HE S HS p os rs e rs' e' o1 o2 Hm Hn Hh Hh'.
  destruct (clf_made_facts p Hm) as ((a & Ha) & _). assert (e' = e) as ->. { destruct Hh as [_ E], Hh' as [_ E']. rewrite E in E'. by injection E'. }
  refine (clf_equal_self sh l fuel b1 b2 Hsh A vw peq HE S HS p os rs e o1 o2 a Ha Hh _). intros k v E ->. exact (Hn k E).
Qed.
Print Assumptions C54_same_calls_classifier.
Theorem C54_same_calls_regressor : forall sh l fuel b1 b2, shuffle_ok sh -> forall (A : algo (mt_rnd sh l fuel b1 b2)) vw peq, tsetlini_equality _ A vw peq ->
  forall S p os rs e rs' e' o1 o2, (forall k, p !! k <> Some (PReal S754_nan)) ->
  reg_history S A vw p os rs e -> reg_history S A vw p os rs' e' -> reg_eqb peq o1 o2 e e' = true.
Proof.
  intros sh l fuel b1 b2 Hsh A vw peq HE S p os rs e rs' e' o1 o2 Hn Hh Hh'.
  assert (e' = e) as ->. { destruct Hh as [_ E], Hh' as [_ E']. rewrite E in E'. by injection E'. }
  refine (reg_equal_self sh l fuel b1 b2 Hsh A vw peq HE S p os rs e o1 o2 Hh _). intros k v E ->. exact (Hn k E).
Qed.
Print Assumptions C54_same_calls_regressor.
(** ... and a fitted estimator that is saved and loaded equals the original *)
Theorem C54_loaded_classifier : forall sh l fuel b1 b2, shuffle_ok sh -> forall (A : algo (mt_rnd sh l fuel b1 b2)) vw peq C, tsetlini_equality _ A vw peq ->
  tsetlini_codec _ A vw C -> forall S, sch_ok S -> forall p os rs e e0 o1 o2 L nf, clf_made p -> finite_C1 p ->
  clf_history S A vw p os rs e -> clf_dims_of os rs = Some (L, nf) ->
  exists j e', clf_to_json C S e = Ret j /\ clf_from_json C S e0 (reparse j) = Ret e' /\ clf_eqb peq o1 o2 e e' = true.
Proof.
  intros sh l fuel b1 b2 Hsh A vw peq C HE HC S HS p os rs e e0 o1 o2 L nf Hm Hf Hh Hd.
  destruct (clf_made_facts p Hm) as ((a & Ha) & Hst & Hfin).
  exact (clf_equal_loaded sh l fuel b1 b2 Hsh A vw peq HE S HS C HC a p os rs e e0 o1 o2 L nf Ha Hst (Hfin Hf) Hh Hd).
Qed.
Print Assumptions C54_loaded_classifier.
Theorem C54_loaded_regressor : forall sh l fuel b1 b2, shuffle_ok sh -> forall (A : algo (mt_rnd sh l fuel b1 b2)) vw peq C, tsetlini_equality _ A vw peq ->
  tsetlini_codec _ A vw C -> forall S, sch_ok S -> forall p os rs e e0 o1 o2 nf, reg_made p -> finite_C1 p ->
  reg_history S A vw p os rs e -> reg_dims_of os rs = Some nf ->
  exists j e', reg_to_json C S e = Ret j /\ reg_from_json C S e0 (reparse j) = Ret e' /\ reg_eqb peq o1 o2 e e' = true.
Proof.
  intros sh l fuel b1 b2 Hsh A vw peq C HE HC S HS p os rs e e0 o1 o2 nf Hm Hf Hh Hd.
  destruct (reg_made_facts p Hm) as ((a & Ha) & Hst & Hfin).
  exact (reg_equal_loaded sh l fuel b1 b2 Hsh A vw peq HE S HS C HC a p os rs e e0 o1 o2 nf Ha Hst (Hfin Hf) Hh Hd).
Qed.
Print Assumptions C54_loaded_regressor.
(** the same calls do not leave equal regressors when loss_fn_C1, which the factories do not restrict, is NaN: nothing but itself equals one *)
Theorem C54_nan_refuted : forall sh l fuel b1 b2, shuffle_ok sh -> forall (A : algo (mt_rnd sh l fuel b1 b2)) vw peq, tsetlini_equality _ A vw peq ->
  forall S p os rs e e' o1 o2, p !! "loss_fn_C1"%string = Some (PReal S754_nan) -> reg_history S A vw p os rs e ->
  reg_eqb peq o1 o2 e e' = (o1 =? o2).
Proof.
  intros sh l fuel b1 b2 Hsh A vw peq HE S p os rs e e' o1 o2 Hp Hh. destruct (Z.eqb_spec o1 o2) as [->|Ho].
  - unfold reg_eqb, est_eqb. by rewrite Z.eqb_refl.
  - apply (equal_nan sh l fuel b1 b2 A peq S reg_cache_eqb e e' o1 o2 "loss_fn_C1"); [|exact Ho]. destruct Hh as [_ Hr]. apply rrun_kept in Hr as [Hr _].
    rewrite Hr by done. exact Hp.
Qed.
Print Assumptions C54_nan_refuted.

(** the hypotheses are met: two fitted regressors, one made with the coefficient 0.0 and the other with -0.0, compare equal *)
Definition zero_args (s : bool) : reg_args := RegArgs 4 10 (f32_of_Z 3) 5 true 7 true 2 false "auto" 16 "L1+2" (S754_zero s) false (Some 42).
Definition zero_params (s : bool) : params := params_of (make_regressor_params_from_args 4 99 (zero_args s)).
Lemma zero_made s : reg_made (zero_params s).
Proof. destruct s; (exists 4, 99; left; eexists (zero_args _); split; [by constructor|vm_compute; reflexivity]). Qed.
Lemma ecz_equal (e : est unit (eS toy_sch) (eG mt42) (eF mt42)) : frng_ok (e_fgen e) -> map_Forall (fun _ v => not_nan v) (e_params (ecz toy_sch CM e)) ->
  reg_eqb unit_eqb 1 2 (ecz toy_sch CM e) e = true.
Proof.
  intros Hf Hn. refine (eqb_join fy_shuffle true 1000 (fun _ => f32_one) (fun _ => f32_half) CM (cl_view mt42) unit_eqb (equality_classic mt42) toy_sch reg_cache_eqb
    1 2 (ecz toy_sch CM e) e eq_refl eq_refl eq_refl Hf _ Hn _).
  - destruct e as [p t c g f]. cbn [ecz with_params e_params]. apply map_eq. intros k. rewrite !lookup_fmap. destruct (p !! k) as [v|]; [cbn|done]. f_equal. by destruct v as [| |[]| | |].
  - destruct e as [p t c g f]. cbn [ecz with_params e_cache]. unfold reg_cache_eqb. by rewrite !Nat.eqb_refl.
Qed.
Example C54_example : exists e1 e2, zero_params true <> zero_params false /\
  reg_history toy_sch CM (cl_view mt42) (zero_params false) mt_reg_ops [RRStatus S_OK] e1 /\
  reg_history toy_sch CM (cl_view mt42) (zero_params true) mt_reg_ops [RRStatus S_OK] e2 /\ reg_eqb unit_eqb 1 2 e1 e2 = true.
Proof.
  destruct (results_ret (reg_run toy_sch CM (construct toy_sch CM (zero_params true)) mt_reg_ops) [RRStatus S_OK]) as [e E]; [vm_compute; reflexivity|].
  assert (cz <$> zero_params true = zero_params false) as Ez.
  { apply map_to_list_inj. match goal with |- ?a ≡ₚ ?b => assert (a = b) as -> by (vm_compute; reflexivity) end. reflexivity. }
  assert (reg_run toy_sch CM (construct toy_sch CM (zero_params false)) mt_reg_ops = Ret ([RRStatus S_OK], ecz toy_sch CM e)) as E1.
  { assert (construct toy_sch CM (zero_params false) = ecz toy_sch CM (construct toy_sch CM (zero_params true))) as ->.
    { unfold ecz, construct, with_params. cbn [e_params e_ta e_cache e_igen e_fgen]. by rewrite Ez. }
    rewrite cz_rrun, E; [done|]. intros b HH. vm_compute in HH. discriminate HH. }
  exists (ecz toy_sch CM e), e. split.
  { intros HH. apply (f_equal (fun m : params => m !! "loss_fn_C1"%string)) in HH. vm_compute in HH. discriminate HH. }
  split; [split; [apply mt_phys|exact E1]|]. split; [split; [apply mt_phys|exact E]|].
  apply ecz_equal.
  - exact (reg_history_fgen (R := mt42) irng_ok frng_ok mt42_ok toy_sch CM (cl_view mt42) _ _ _ _ (conj (mt_phys _) E)).
  - apply rrun_kept in E1. eapply par_nan; [exact E1|]. apply finite_not_nan. apply (proj2 (proj2 (reg_made_facts _ (zero_made false)))).
    intros x HH. vm_compute in HH. by injection HH as <-.
Qed.
Definition nan_args : reg_args := RegArgs 4 10 (f32_of_Z 3) 5 true 7 true 2 false "auto" 16 "MSE" S754_nan false (Some 42).
Definition nan_params : params := params_of (make_regressor_params_from_args 4 99 nan_args).
Lemma nan_made : reg_made nan_params.
Proof. exists 4, 99. left. exists nan_args. split; [by constructor|vm_compute; reflexivity]. Qed.
Example C54_example_nan : exists e, reg_made nan_params /\ nan_params !! "loss_fn_C1"%string = Some (PReal S754_nan) /\
  reg_history toy_sch CM (cl_view mt42) nan_params mt_reg_ops [RRStatus S_OK] e.
Proof.
  destruct (results_ret (reg_run toy_sch CM (construct toy_sch CM nan_params) mt_reg_ops) [RRStatus S_OK]) as [e E]; [vm_compute; reflexivity|].
  exists e. split; [|split; [vm_compute; reflexivity|]].
  - exact nan_made.
  - split; [apply mt_phys|exact E].
Qed.
