(** * Facts about keyword arguments (KwArgs.v). *)
From Verif Require Export KwArgs ParamFacts.
From Coq Require Import Permutation.
From stdpp Require Import list.
Local Open Scope Z_scope.

(** [v] is the value passed as an argument of the kind [mk], or the default [d] when none was passed *)
Definition passed {V} (args : list kwarg) (mk : V -> kwarg) (d v : V) : Prop := mk v ∈ args \/ (v = d /\ forall w, mk w ∉ args).
Definition passed_opt {V} (args : list kwarg) (mk : V -> kwarg) (v : option V) : Prop :=
  match v with Some v => mk v ∈ args | None => forall w, mk w ∉ args end.

Lemma kw_find_some t args k : kw_find t args = Some k -> k ∈ args /\ kwtype_of k = t.
Proof.
  unfold kw_find. destruct (list_find _ _) as [[i k']|] eqn:E; [|done]. intros [= <-].
  apply list_find_Some in E as (E1 & E2 & _). split; [by eapply elem_of_list_lookup_2|done].
Qed.
Lemma kw_find_none t args : kw_find t args = None -> forall k, k ∈ args -> kwtype_of k <> t.
Proof.
  unfold kw_find. destruct (list_find _ _) eqn:E; [done|]. intros _. apply list_find_None in E. rewrite Forall_forall in E. exact E.
Qed.
Lemma kw_find_unique t args k : NoDup (map kwtype_of args) -> k ∈ args -> kwtype_of k = t -> kw_find t args = Some k.
Proof.
  intros Hn Hk Ht. destruct (kw_find t args) as [k'|] eqn:E.
  - apply kw_find_some in E as [Hk' Ht']. f_equal. revert Hn Hk Hk'. induction args as [|a args IH]; intros Hn Hk Hk'; [by apply elem_of_nil in Hk|].
    cbn in Hn. apply NoDup_cons in Hn as [Ha Hn].
    apply elem_of_cons in Hk as [-> | Hk], Hk' as [-> | Hk']; [done| | |by apply IH].
    + exfalso. apply Ha. rewrite Ht, <- Ht'. by apply elem_of_list_fmap_1.
    + exfalso. apply Ha. rewrite Ht', <- Ht. by apply elem_of_list_fmap_1.
  - exfalso. by apply (kw_find_none t args E k Hk).
Qed.
Lemma kw_find_perm t args args' : NoDup (map kwtype_of args) -> Permutation args args' -> kw_find t args = kw_find t args'.
Proof.
  intros Hn Hp. assert (NoDup (map kwtype_of args')) as Hn' by (rewrite <- Hp; exact Hn).
  destruct (kw_find t args) as [k|] eqn:E.
  - apply kw_find_some in E as [Hk Ht]. symmetry. apply kw_find_unique; [done|by rewrite <- Hp|done].
  - destruct (kw_find t args') as [k|] eqn:E'; [|done]. apply kw_find_some in E' as [Hk Ht].
    exfalso. apply (kw_find_none t args E k); [by rewrite Hp|done].
Qed.

Section Perm.
  Context (args args' : list kwarg) (Hn : NoDup (map kwtype_of args)) (Hp : Permutation args args').
  Lemma clf_kw_perm : clf_kw_args args = clf_kw_args args'.
  Proof using Hn Hp. unfold clf_kw_args, kw_Z, kw_real, kw_bool, kw_str, kw_seed. by rewrite !(kw_find_perm _ args args' Hn Hp). Qed.
  Lemma reg_kw_perm : reg_kw_args args = reg_kw_args args'.
  Proof using Hn Hp. unfold reg_kw_args, kw_Z, kw_real, kw_bool, kw_str, kw_seed. by rewrite !(kw_find_perm _ args args' Hn Hp). Qed.
  Lemma fit_kw_perm : fit_kw_args args = fit_kw_args args'.
  Proof using Hn Hp. unfold fit_kw_args, kw_Z, kw_epochs. by rewrite !(kw_find_perm _ args args' Hn Hp). Qed.
End Perm.

(** every extraction yields the passed value or the default *)
Ltac kw_passed t args := unfold passed, passed_opt, kw_Z, kw_real, kw_bool, kw_str, kw_seed, kw_epochs;
  let k := fresh "k" in let E := fresh "E" in
  destruct (kw_find t args) as [k|] eqn:E;
  [apply kw_find_some in E as [? ?]; destruct k; try discriminate; first [by left|done]
  |first [right; split; [done|] | idtac]; intros w Hw; exact (kw_find_none t args E _ Hw eq_refl)].
Section Passed.
  Context (args : list kwarg).
  Lemma p_clf_clauses d : passed args KClfClauses d (kw_Z TClfClauses d args). Proof. kw_passed TClfClauses args. Qed.
  Lemma p_reg_clauses d : passed args KRegClauses d (kw_Z TRegClauses d args). Proof. kw_passed TRegClauses args. Qed.
  Lemma p_states d : passed args KStates d (kw_Z TStates d args). Proof. kw_passed TStates args. Qed.
  Lemma p_s d : passed args KSpecificity d (kw_real TSpecificity d args). Proof. kw_passed TSpecificity args. Qed.
  Lemma p_threshold d : passed args KThreshold d (kw_Z TThreshold d args). Proof. kw_passed TThreshold args. Qed.
  Lemma p_weighted d : passed args KWeighted d (kw_bool TWeighted d args). Proof. kw_passed TWeighted args. Qed.
  Lemma p_maxw d : passed args KMaxWeight d (kw_Z TMaxWeight d args). Proof. kw_passed TMaxWeight args. Qed.
  Lemma p_boost d : passed args KBoost d (kw_bool TBoost d args). Proof. kw_passed TBoost args. Qed.
  Lemma p_jobs d : passed args KJobs d (kw_Z TJobs d args). Proof. kw_passed TJobs args. Qed.
  Lemma p_verbose d : passed args KVerbose d (kw_bool TVerbose d args). Proof. kw_passed TVerbose args. Qed.
  Lemma p_counting d : passed args KCounting d (kw_str TCounting d args). Proof. kw_passed TCounting args. Qed.
  Lemma p_tile d : passed args KTile d (kw_Z TTile d args). Proof. kw_passed TTile args. Qed.
  Lemma p_loss d : passed args KLoss d (kw_str TLoss d args). Proof. kw_passed TLoss args. Qed.
  Lemma p_C1 d : passed args KLossC1 d (kw_real TLossC1 d args). Proof. kw_passed TLossC1 args. Qed.
  Lemma p_box d : passed args KBoxMuller d (kw_bool TBoxMuller d args). Proof. kw_passed TBoxMuller args. Qed.
  Lemma p_seed : passed_opt args KSeed (kw_seed args). Proof. kw_passed TSeed args. Qed.
  Lemma p_epochs d : passed args KEpochs d (kw_epochs d args). Proof. kw_passed TEpochs args. Qed.
  Lemma p_labels : TMaxLabels ∈ map kwtype_of args -> KMaxLabels (kw_Z TMaxLabels 0 args) ∈ args.
  Proof.
    intros H. apply elem_of_list_fmap in H as (k & E & Hk). unfold kw_Z. destruct (kw_find TMaxLabels args) as [k'|] eqn:F.
    - apply kw_find_some in F as [? ?]. by destruct k'.
    - by destruct (kw_find_none _ _ F k Hk).
  Qed.
End Passed.

(** the record of arguments, field by field *)
Record clf_passed (args : list kwarg) (a : clf_args) : Prop := {
  cp_clauses : passed args KClfClauses 12 (ca_clauses a);
  cp_states : passed args KStates 100 (ca_states a);
  cp_s : passed args KSpecificity (f32_of_Z 2) (ca_s a);
  cp_threshold : passed args KThreshold 15 (ca_threshold a);
  cp_weighted : passed args KWeighted false (ca_weighted a);
  cp_maxw : passed args KMaxWeight int_max (ca_max_weight a);
  cp_boost : passed args KBoost false (ca_boost a);
  cp_jobs : passed args KJobs (-1) (ca_n_jobs a);
  cp_verbose : passed args KVerbose false (ca_verbose a);
  cp_counting : passed args KCounting "auto"%string (ca_counting a);
  cp_tile : passed args KTile 16 (ca_tile a);
  cp_seed : passed_opt args KSeed (ca_seed a) }.
Record reg_passed (args : list kwarg) (a : reg_args) : Prop := {
  rp_clauses : passed args KRegClauses 20 (ra_clauses a);
  rp_states : passed args KStates 100 (ra_states a);
  rp_s : passed args KSpecificity (f32_of_Z 2) (ra_s a);
  rp_threshold : passed args KThreshold 15 (ra_threshold a);
  rp_weighted : passed args KWeighted true (ra_weighted a);
  rp_maxw : passed args KMaxWeight int_max (ra_max_weight a);
  rp_boost : passed args KBoost false (ra_boost a);
  rp_jobs : passed args KJobs (-1) (ra_n_jobs a);
  rp_verbose : passed args KVerbose false (ra_verbose a);
  rp_counting : passed args KCounting "auto"%string (ra_counting a);
  rp_tile : passed args KTile 16 (ra_tile a);
  rp_loss : passed args KLoss "MSE"%string (ra_loss a);
  rp_C1 : passed args KLossC1 (S754_zero false) (ra_C1 a);
  rp_box : passed args KBoxMuller false (ra_box_muller a);
  rp_seed : passed_opt args KSeed (ra_seed a) }.
Lemma clf_kw_passed args : clf_passed args (clf_kw_args args).
Proof.
  constructor; cbn [clf_kw_args ca_clauses ca_states ca_s ca_threshold ca_weighted ca_max_weight ca_boost ca_n_jobs ca_verbose ca_counting ca_tile ca_seed];
    auto using p_clf_clauses, p_states, p_s, p_threshold, p_weighted, p_maxw, p_boost, p_jobs, p_verbose, p_counting, p_tile, p_seed.
Qed.
Lemma reg_kw_passed args : reg_passed args (reg_kw_args args).
Proof.
  constructor; cbn [reg_kw_args ra_clauses ra_states ra_s ra_threshold ra_weighted ra_max_weight ra_boost ra_n_jobs ra_verbose ra_counting ra_tile
    ra_loss ra_C1 ra_box_muller ra_seed];
    auto using p_reg_clauses, p_states, p_s, p_threshold, p_weighted, p_maxw, p_boost, p_jobs, p_verbose, p_counting, p_tile, p_seed, p_loss, p_C1, p_box.
Qed.
(** with distinct types there is only one such record *)
Lemma passed_unique {V} args (mk : V -> kwarg) d v w : NoDup (map kwtype_of args) -> (forall a b, mk a = mk b -> a = b) ->
  (forall a b, kwtype_of (mk a) = kwtype_of (mk b)) -> passed args mk d v -> passed args mk d w -> v = w.
Proof.
  intros Hn Hi Ht [Hv|[-> Hv]] [Hw|[-> Hw]]; try done; try (by edestruct Hv); try (by edestruct Hw).
  apply Hi. enough (Some (mk v) = Some (mk w)) as [= E] by exact E.
  rewrite <- (kw_find_unique (kwtype_of (mk v)) args (mk v)) by done. by apply kw_find_unique.
Qed.
Lemma passed_opt_unique args v w : NoDup (map kwtype_of args) -> passed_opt args KSeed v -> passed_opt args KSeed w -> v = w.
Proof.
  intros Hn. destruct v as [v|], w as [w|]; cbn; intros Hv Hw; try done; [|by destruct (Hw v)|by destruct (Hv w)].
  enough (Some (KSeed v) = Some (KSeed w)) as [= ->] by done.
  rewrite <- (kw_find_unique TSeed args (KSeed v)) by done. by apply kw_find_unique.
Qed.
Lemma clf_passed_unique args a : NoDup (map kwtype_of args) -> clf_passed args a -> a = clf_kw_args args.
Proof.
  intros Hn Ha. pose proof (clf_kw_passed args) as Hb. destruct a. destruct Ha, Hb. cbn in *. unfold clf_kw_args.
  f_equal; try (eapply passed_unique; [exact Hn| | |eassumption|eassumption]; [by intros ?? [= ->]|done]).
  by eapply passed_opt_unique.
Qed.
Lemma reg_passed_unique args a : NoDup (map kwtype_of args) -> reg_passed args a -> a = reg_kw_args args.
Proof.
  intros Hn Ha. pose proof (reg_kw_passed args) as Hb. destruct a. destruct Ha, Hb. cbn in *. unfold reg_kw_args.
  f_equal; try (eapply passed_unique; [exact Hn| | |eassumption|eassumption]; [by intros ?? [= ->]|done]).
  by eapply passed_opt_unique.
Qed.

(** ** moved-from arguments *)
Lemma moved_after moved vars s : (KCounting s, false) ∈ vars -> (KCounting (moved s), false) ∈ map (kw_after moved) vars.
Proof. intros H. apply (elem_of_list_fmap_1 (kw_after moved)) in H. exact H. Qed.
Lemma kw_after_type moved v : kwtype_of (kw_after moved v).1 = kwtype_of v.1.
Proof. destruct v as [[] []]; done. Qed.
Lemma after_types moved vars : map kwtype_of (map fst (map (kw_after moved) vars)) = map kwtype_of (map fst vars).
Proof. rewrite !map_map. apply map_ext. intros v. apply kw_after_type. Qed.
(** a const or numeric argument keeps its value *)
Lemma second_call_rejected moved hw rd vars s : ~ counting_known (moved s) ->
  NoDup (map kwtype_of (map fst vars)) -> (KCounting s, false) ∈ vars ->
  make_classifier hw rd (map fst (map (kw_after moved) vars)) = Ret (Left S_BAD_JSON).
Proof.
  intros Hm Hn Hs. unfold make_classifier. rewrite clf_args_factory.
  destruct (clf_accept_b _ _) eqn:E; [exfalso|done]. apply clf_accept_iff in E as [E _]. apply Hm.
  enough (ca_counting (clf_kw_args (map fst (map (kw_after moved) vars))) = moved s) as <- by apply E. cbn.
  unfold kw_str. rewrite (kw_find_unique TCounting _ (KCounting (moved s))); [done| |by apply (elem_of_list_fmap_1 fst _ (KCounting (moved s), false)), moved_after|done].
  by rewrite after_types.
Qed.
Lemma second_call_rejected_reg moved hw rd vars s : ~ counting_known (moved s) ->
  NoDup (map kwtype_of (map fst vars)) -> (KCounting s, false) ∈ vars ->
  make_regressor hw rd (map fst (map (kw_after moved) vars)) = Ret (Left S_BAD_JSON).
Proof.
  intros Hm Hn Hs. unfold make_regressor. rewrite reg_args_factory.
  destruct (reg_accept_b _ _) eqn:E; [exfalso|done]. apply reg_accept_iff in E as [E _]. apply Hm.
  enough (ra_counting (reg_kw_args (map fst (map (kw_after moved) vars))) = moved s) as <- by apply E. cbn.
  unfold kw_str. rewrite (kw_find_unique TCounting _ (KCounting (moved s))); [done| |by apply (elem_of_list_fmap_1 fst _ (KCounting (moved s), false)), moved_after|done].
  by rewrite after_types.
Qed.
Lemma second_call_rejected_loss moved hw rd vars s : ~ loss_known (moved s) ->
  NoDup (map kwtype_of (map fst vars)) -> (KLoss s, false) ∈ vars ->
  make_regressor hw rd (map fst (map (kw_after moved) vars)) = Ret (Left S_BAD_JSON).
Proof.
  intros Hm Hn Hs. unfold make_regressor. rewrite reg_args_factory.
  destruct (reg_accept_b _ _) eqn:E; [exfalso|done]. apply reg_accept_iff in E as [E _]. apply Hm.
  enough (ra_loss (reg_kw_args (map fst (map (kw_after moved) vars))) = moved s) as <- by apply E. cbn.
  unfold kw_str. rewrite (kw_find_unique TLoss _ (KLoss (moved s))); [done| | |done].
  - by rewrite after_types.
  - apply (elem_of_list_fmap_1 fst _ (KLoss (moved s), false)). apply (elem_of_list_fmap_1 (kw_after moved) _ (KLoss s, false)). exact Hs.
Qed.
(** what stays: constants, numbers and flags *)
Lemma kept_after moved vars k c : (k, c) ∈ vars -> c = true \/ (forall s, k <> KCounting s /\ k <> KLoss s) ->
  (k, c) ∈ map (kw_after moved) vars.
Proof.
  intros H Hk. apply (elem_of_list_fmap_1 (kw_after moved)) in H. destruct Hk as [-> | Hk].
  - destruct k; exact H.
  - destruct k; try exact H; exfalso; [by destruct (Hk s)|by destruct (Hk s)].
Qed.
