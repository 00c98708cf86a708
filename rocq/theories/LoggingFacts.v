(** * What the library logs: proofs for C81. *)
From Verif Require Import PropFacts HistFacts Logging LogSpec.
From stdpp Require Import list.
Local Open Scope string_scope.
Local Open Scope list_scope.
Local Open Scope Z_scope.

(** ** Loops *)
Lemma clf_log_dims {R} {A : algo R} a seed (os : list (clf_op A)) rs :
  foldl (fun '(d, w) '(o, r) => (clf_dims_after d o r, w ++ clf_lines a seed d (clf_dims_after d o r) o r)) (None, []) (zip os rs) =
  (clf_dims_of os rs, clf_log a seed os rs).
Proof.
  unfold clf_log, clf_dims_of. generalize (zip os rs) as l. intros l. rewrite (surjective_pairing (foldl _ (None, []) l)). f_equal.
  generalize (@nil log_line) as w. generalize (@None (nat * nat)) as d. induction l as [|[o r] l IH]; intros d w; [done|]. cbn [foldl]. apply IH.
Qed.
Lemma reg_log_dims {R} {A : algo R} a seed (os : list (reg_op A)) rs :
  foldl (fun '(d, w) '(o, r) => (reg_dims_after d o r, w ++ reg_lines a seed d (reg_dims_after d o r) o r)) (None, []) (zip os rs) =
  (reg_dims_of os rs, reg_log a seed os rs).
Proof.
  unfold reg_log, reg_dims_of. generalize (zip os rs) as l. intros l. rewrite (surjective_pairing (foldl _ (None, []) l)). f_equal.
  generalize (@nil log_line) as w. generalize (@None nat) as d. induction l as [|[o r] l IH]; intros d w; [done|]. cbn [foldl]. apply IH.
Qed.
Lemma clf_log_snoc {R} {A : algo R} a seed (os : list (clf_op A)) rs o r : length rs = length os ->
  clf_log a seed (os ++ [o]) (rs ++ [r]) =
  clf_log a seed os rs ++ clf_lines a seed (clf_dims_of os rs) (clf_dims_of (os ++ [o]) (rs ++ [r])) o r.
Proof.
  intros E. rewrite clf_dims_snoc by done. unfold clf_log at 1. rewrite zip_with_app by done. rewrite foldl_app, clf_log_dims. done.
Qed.
Lemma reg_log_snoc {R} {A : algo R} a seed (os : list (reg_op A)) rs o r : length rs = length os ->
  reg_log a seed (os ++ [o]) (rs ++ [r]) =
  reg_log a seed os rs ++ reg_lines a seed (reg_dims_of os rs) (reg_dims_of (os ++ [o]) (rs ++ [r])) o r.
Proof.
  intros E. rewrite reg_dims_snoc by done. unfold reg_log at 1. rewrite zip_with_app by done. rewrite foldl_app, reg_log_dims. done.
Qed.
Lemma clf_lines_silent {R} {A : algo R} a seed d d' (o : clf_op A) r : ca_verbose a = false -> clf_lines a seed d d' o r = [].
Proof. intros E. unfold clf_lines. by rewrite E. Qed.
Lemma reg_lines_silent {R} {A : algo R} a seed d d' (o : reg_op A) r : ra_verbose a = false -> reg_lines a seed d d' o r = [].
Proof. intros E. unfold reg_lines. by rewrite E. Qed.
Lemma clf_log_silent {R} {A : algo R} a seed (os : list (clf_op A)) rs : ca_verbose a = false -> clf_log a seed os rs = [].
Proof.
  intros E. unfold clf_log. generalize (zip os rs) as l. intros l. generalize (@None (nat * nat)) as d.
  induction l as [|[o r] l IH]; intros d; [done|]. cbn [foldl]. rewrite clf_lines_silent by done. apply IH.
Qed.
Lemma reg_log_silent {R} {A : algo R} a seed (os : list (reg_op A)) rs : ra_verbose a = false -> reg_log a seed os rs = [].
Proof.
  intros E. unfold reg_log. generalize (zip os rs) as l. intros l. generalize (@None nat) as d.
  induction l as [|[o r] l IH]; intros d; [done|]. cbn [foldl]. rewrite reg_lines_silent by done. apply IH.
Qed.
Lemma loop_logged {St} (body : St -> outcome St) (f : nat -> log -> log) l s w :
  ofold l (s, w) (fun i '(s, w) => let w := f i w in let* s := body s in Ret (s, w)) =
  (let* s := ofold l s (fun _ => body) in Ret (s, fold_left (fun w i => f i w) l w)).
Proof.
  revert s w. induction l as [|i l IH]; intros s w; cbn [ofold fold_left]; [done|].
  destruct (body s); cbn [obind]; try done; apply IH.
Qed.
Lemma log_epochs v l w : fold_left (fun w i => log_epoch v i w) l w =
  if v then w ++ map (fun i => Line LInfo "tsetlini" "Epoch " (IInt (Z.of_nat i + 1))) l else w.
Proof.
  revert w. induction l as [|i l IH]; intros w; cbn [fold_left map]; [by rewrite app_nil_r; destruct v|].
  rewrite IH. unfold log_epoch, LOG. destruct v; [|done]. by rewrite <- app_assoc.
Qed.
Lemma log_epochs_all v n w : fold_left (fun w i => log_epoch v i w) (seq 0 n) w = w ++ (if v then epoch_lines n else []).
Proof.
  rewrite log_epochs. destruct v; [|by rewrite app_nil_r]. f_equal. unfold epoch_lines. rewrite <- seq_shift, map_map. apply map_ext. intros i. do 2 f_equal. lia.
Qed.
Lemma selected_logged ct N v w : normalize_counting_type_logged ct N v w =
  (normalize_counting_type ct N, w ++ (if v then [selected_line ct N] else [])).
Proof.
  unfold normalize_counting_type_logged, normalize_counting_type, selected_line, width_of, normalize_counting_type, LOG.
  destruct (_ && _); [|destruct (_ && _)]; destruct v; rewrite ?app_nil_r; done.
Qed.

Section Logged.
  Context {R : rnd} (S : sch) (A : algo R).
  Notation est := (est (a_pol A) (eS S) (eG R) (eF R)).

  Lemma clf_online_logged (e : est) X y n w v : P_verbose (e_params e) = Ret v ->
    clf_fit_online_logged S A e X y n w = (let* '(st, e') := clf_fit_online S A e X y n in Ret (st, e', w ++ (if v then epoch_lines n else []))).
  Proof.
    intros Hv. unfold clf_fit_online_logged, clf_fit_online.
    repeat match goal with |- obind ?o _ = _ => lazymatch o with context[ofor] => fail | _ => destruct o eqn:?; cbn [obind]; try done end end.
    injection Hv as ->. unfold ofor. rewrite loop_logged, log_epochs_all. destruct (ofold _ _ _) as [[[[g f] s] c]| | |]; done.
  Qed.
  Lemma clf_online_ok (e e' : est) X y n st : clf_fit_online S A e X y n = Ret (st, e') -> st = S_OK.
  Proof.
    unfold clf_fit_online. intros H. repeat (apply obind_ret_inv in H as (? & _ & H)). destruct_and?.
    repeat match type of H with context[match ?x with _ => _ end] => destruct x end. by injection H.
  Qed.
  Lemma reg_online_ok (e e' : est) X y n st : reg_fit_online S A e X y n = Ret (st, e') -> st = S_OK.
  Proof.
    unfold reg_fit_online. intros H. repeat (apply obind_ret_inv in H as (? & _ & H)). destruct_and?.
    repeat match type of H with context[match ?x with _ => _ end] => destruct x end. by injection H.
  Qed.
  Lemma reg_online_logged (e : est) X y n w v : P_verbose (e_params e) = Ret v ->
    reg_fit_online_logged S A e X y n w = (let* '(st, e') := reg_fit_online S A e X y n in Ret (st, e', w ++ (if v then epoch_lines n else []))).
  Proof.
    intros Hv. unfold reg_fit_online_logged, reg_fit_online.
    repeat match goal with |- obind ?o _ = _ => lazymatch o with context[ofor] => fail | _ => destruct o eqn:?; cbn [obind]; try done end end.
    injection Hv as ->. unfold ofor. rewrite loop_logged, log_epochs_all. destruct (ofold _ _ _) as [[[g s] c]| | |]; done.
  Qed.

  Lemma init_kept cl out reset (e e' : est) : initialize_state S A cl out reset e = Ret e' -> e_params e' = e_params e.
  Proof.
    unfold initialize_state. intros H. repeat (apply obind_ret_inv in H as (? & _ & H)).
    cbv zeta in H. repeat (apply obind_ret_inv in H as (? & _ & H)).
    repeat match goal with x : _ * _ |- _ => destruct x end.
    repeat (apply obind_ret_inv in H as (? & _ & H)). by injection H as <-.
  Qed.

  Section Clf.
    Context (a : clf_args) (seed : Z) (Hs : ca_seed a = Some seed) (Ha : clf_valid a).

    Lemma clf_init_logged (e : est) (L nf : nat) w : clf_has a (e_params e) ->
      P_number_of_labels (e_params e) = Ret (Z.of_nat L) -> P_number_of_features (e_params e) = Ret (Z.of_nat nf) ->
      clf_initialize_logged S A e w =
      (let* e' := clf_initialize S A e in Ret (e', w ++ (if ca_verbose a then clf_header a seed L nf else []))).
    Proof.
      intros Hh HpL Hpf. unfold clf_initialize_logged, clf_initialize, initialize_state_logged, initialize_state.
      destruct Hh as [h_cl h_st h_s h_thr h_w h_mw h_b h_nj h_v h_ct h_tl (z & Ez & h_seed)].
      assert (z = seed) as -> by congruence. rewrite h_v, h_seed, h_st. cbn [obind].
      unfold log_classifier_params. rewrite HpL, Hpf, h_s, h_st, h_thr, h_w, h_ct, h_nj, h_seed. cbn [obind].
      unfold P_clf_clauses. rewrite HpL, h_cl. cbn [obind]. destruct (ci32 (Z.of_nat L * ca_clauses a)) as [z| | |] eqn:Ec; try done.
      apply ci32_inv in Ec as [-> _]. cbn [obind].
      destruct (ca_weighted a) eqn:Ew; [rewrite h_mw|]; cbn [obind].
      all: destruct (P_clf_outputs (e_params e)); try done; cbn [obind]; rewrite selected_logged.
      all: destruct (a_init A _ _ _ _) as [[[m q] g]| | |]; try done; cbn [obind].
      all: destruct (clf_cache_reset S (e_params e) (e_cache e)); try done; cbn [obind]; do 2 f_equal.
      all: unfold LOG, clf_header, info; rewrite Ew; destruct (ca_verbose a); rewrite ?app_nil_r; [|done]; by rewrite <- !app_assoc.
    Qed.

    Lemma clf_fit_logged_eq (e : est) X y ml n w : clf_has a (e_params e) ->
      clf_fit_logged S A e X y ml n w =
      (let* '(st, e') := clf_fit S A e X y ml n in
       Ret (st, e', w ++ clf_lines a seed None (clf_dims_after None (CFit A X y ml n) (CRStatus st)) (CFit A X y ml n) (CRStatus st))).
    Proof.
      intros Hh. unfold clf_fit_logged, clf_fit.
      assert (forall st d d', st <> S_OK -> clf_lines a seed d d' (CFit A X y ml n) (CRStatus st) = []) as Hno.
      { intros st d d' H. unfold clf_lines. destruct (ca_verbose a); [|done]. by destruct st. }
      destruct (check_X_y A X y) as [st| | |] eqn:E1; try done. cbn [obind].
      destruct (decide (st <> S_OK)) as [H|H]; [cbn [obind]; by rewrite Hno, app_nil_r|].
      destruct (decide (y = [])) as [->|Hy]; [done|].
      destruct (list_max_spec y Hy) as (hi & Ehi & Hin & _). destruct (list_min_spec y Hy) as (lo & Elo & _ & HF).
      rewrite Ehi. cbn [obind]. destruct (ci32 (hi + 1)) as [h1| | |] eqn:Eh; try done. apply ci32_inv in Eh as [-> _]. cbn [obind].
      unfold check_labels. rewrite Elo. cbn [obind].
      destruct (Z.ltb_spec lo 0) as [Hlo|Hlo]; [rewrite !decide_True by done; cbn [obind]; by rewrite Hno, app_nil_r|].
      rewrite !decide_False by (intros Hx; by apply Hx).
      rewrite Forall_forall in HF. pose proof (HF _ Hin) as Hhi. cbv beta in Hhi.
      assert (Forall (fun v => 0 <= v) y) as H0. { apply Forall_forall. intros v Hv. specialize (HF v Hv). cbv beta in HF. lia. }
      assert (hi = max_label y) as ->. { rewrite list_max_label in Ehi by done. by injection Ehi. }
      fold (n_labels y ml). assert (1 <= n_labels y ml) as HL1 by (unfold n_labels; lia).
      set (L := Z.to_nat (n_labels y ml)) in *. assert (Z.of_nat L = n_labels y ml) as EL by (unfold L; lia). rewrite <- EL.
      destruct X as [|x X]; [done|]. cbn [front_size obind].
      destruct (ci32 (Z.of_nat (a_size A x))) as [z| | |] eqn:Ez; try done. apply ci32_inv in Ez as [-> _]. cbn [obind].
      fold (clf_fit_params L (a_size A x) (e_params e)).
      rewrite (clf_init_logged _ L (a_size A x)).
      2:{ cbn [with_params e_params]. by apply clf_fit_params_has. }
      2:{ cbn [with_params e_params]. unfold clf_fit_params. rewrite P_labels_insert_ne. apply P_labels_insert. }
      2:{ cbn [with_params e_params]. apply P_features_insert. }
      destruct (clf_initialize S A _) as [e1| | |] eqn:Ei; try done. cbn [obind].
      assert (P_verbose (e_params e1) = Ret (ca_verbose a)) as Hv.
      { rewrite (init_kept _ _ _ _ _ Ei). cbn [with_params e_params]. apply (clf_fit_params_has _ L (a_size A x)) in Hh. apply Hh. }
      rewrite (clf_online_logged _ _ _ _ _ _ Hv). destruct (clf_fit_online S A e1 _ y n) as [[st' e2]| | |] eqn:Eo; try done. cbn [obind].
      apply clf_online_ok in Eo as ->. do 2 f_equal. unfold clf_lines, clf_dims_after, features_of. fold L.
      destruct (ca_verbose a); by rewrite ?app_nil_r, ?app_assoc.
    Qed.

    Lemma clf_more_logged (e : est) L nf X y ml n w : clf_has a (e_params e) ->
      clf_fit_online_checked_logged S A e X y ml n w =
      (let* '(st, e') := clf_fit_online_checked S A e X y ml n in
       Ret (st, e', w ++ clf_lines a seed (Some (L, nf)) (clf_dims_after (Some (L, nf)) (CPartialFit A X y ml n) (CRStatus st)) (CPartialFit A X y ml n) (CRStatus st))).
    Proof.
      intros Hh. unfold clf_fit_online_checked_logged, clf_fit_online_checked.
      assert (forall st d d', st <> S_OK -> clf_lines a seed d d' (CPartialFit A X y ml n) (CRStatus st) = []) as Hno.
      { intros st d d' H. unfold clf_lines. destruct (ca_verbose a); [|done]. by destruct st. }
      repeat match goal with |- (let* _ := ?o in _) = _ => lazymatch o with clf_fit_online _ _ _ _ _ _ => fail | _ => destruct o; cbn [obind]; try done end
      | |- (if ?b then _ else _) = _ => destruct b; [cbn [obind]; by rewrite Hno, app_nil_r|] end.
      rewrite (clf_online_logged _ _ _ _ _ _ (ch_verbose _ _ Hh)). destruct (clf_fit_online S A e X y n) as [[st' e2]| | |] eqn:Eo; try done. cbn [obind].
      apply clf_online_ok in Eo as ->. reflexivity.
    Qed.
  End Clf.

  Section Reg.
    Context (a : reg_args) (seed : Z) (Hs : ra_seed a = Some seed) (Ha : reg_valid a).

    Lemma reg_init_logged (e : est) (nf : nat) w : reg_has a (e_params e) -> P_number_of_features (e_params e) = Ret (Z.of_nat nf) ->
      reg_initialize_logged S A e w =
      (let* e' := reg_initialize S A e in Ret (e', w ++ (if ra_verbose a then reg_header a seed nf else []))).
    Proof.
      intros Hh Hpf. unfold reg_initialize_logged, reg_initialize, initialize_state_logged, initialize_state.
      destruct Hh as [h_cl h_st h_s h_thr h_w h_mw h_b h_nj h_v h_ct h_tl h_l h_c h_bm (z & Ez & h_seed)].
      assert (z = seed) as -> by congruence. rewrite h_v, h_seed, h_st. cbn [obind].
      unfold log_regressor_params. rewrite h_cl, Hpf, h_s, h_st, h_thr, h_w, h_l, h_c, h_bm, h_ct, h_nj, h_seed. cbn [obind].
      destruct (ra_weighted a) eqn:Ew; [rewrite h_mw|]; cbn [obind].
      all: destruct (P_reg_outputs (e_params e)); try done; cbn [obind]; rewrite selected_logged.
      all: destruct (a_init A _ _ _ _) as [[[m q] g]| | |]; try done; cbn [obind].
      all: destruct (reg_cache_reset S (e_params e) (e_cache e)); try done; cbn [obind]; do 2 f_equal.
      all: unfold LOG, reg_header, info; rewrite Ew; destruct (ra_verbose a); rewrite ?app_nil_r; [|done]; by rewrite <- !app_assoc.
    Qed.

    Lemma reg_fit_logged_eq (e : est) X y n w : reg_has a (e_params e) ->
      reg_fit_logged S A e X y n w =
      (let* '(st, e') := reg_fit S A e X y n in
       Ret (st, e', w ++ reg_lines a seed None (reg_dims_after None (RFit A X y n) (RRStatus st)) (RFit A X y n) (RRStatus st))).
    Proof.
      intros Hh. unfold reg_fit_logged, reg_fit.
      assert (forall st d d', st <> S_OK -> reg_lines a seed d d' (RFit A X y n) (RRStatus st) = []) as Hno.
      { intros st d d' H. unfold reg_lines. destruct (ra_verbose a); [|done]. by destruct st. }
      destruct (check_X_y A X y) as [st| | |] eqn:E1; try done. cbn [obind].
      destruct (decide (st <> S_OK)) as [H|H]; [cbn [obind]; by rewrite Hno, app_nil_r|].
      rewrite (rh_threshold _ _ Hh). cbn [obind].
      destruct (decide (_ <> S_OK)) as [H'|H']; [cbn [obind]; by rewrite Hno, app_nil_r|].
      destruct X as [|x X]; [done|]. cbn [front_size obind].
      destruct (ci32 (Z.of_nat (a_size A x))) as [z| | |] eqn:Ez; try done. apply ci32_inv in Ez as [-> _]. cbn [obind].
      fold (reg_fit_params (a_size A x) (e_params e)).
      rewrite (reg_init_logged _ (a_size A x)).
      2:{ cbn [with_params e_params]. by apply reg_fit_params_has. }
      2:{ cbn [with_params e_params]. apply P_features_insert. }
      destruct (reg_initialize S A _) as [e1| | |] eqn:Ei; try done. cbn [obind].
      assert (P_verbose (e_params e1) = Ret (ra_verbose a)) as Hv.
      { rewrite (init_kept _ _ _ _ _ Ei). cbn [with_params e_params]. apply (reg_fit_params_has _ (a_size A x)) in Hh. apply Hh. }
      rewrite (reg_online_logged _ _ _ _ _ _ Hv). destruct (reg_fit_online S A e1 _ y n) as [[st' e2]| | |] eqn:Eo; try done. cbn [obind].
      apply reg_online_ok in Eo as ->. do 2 f_equal. unfold reg_lines, reg_dims_after, features_of.
      destruct (ra_verbose a); by rewrite ?app_nil_r, ?app_assoc.
    Qed.

    Lemma reg_more_logged (e : est) nf X y n w : reg_has a (e_params e) ->
      reg_fit_online_checked_logged S A e X y n w =
      (let* '(st, e') := reg_fit_online_checked S A e X y n in
       Ret (st, e', w ++ reg_lines a seed (Some nf) (reg_dims_after (Some nf) (RPartialFit A X y n) (RRStatus st)) (RPartialFit A X y n) (RRStatus st))).
    Proof.
      intros Hh. unfold reg_fit_online_checked_logged, reg_fit_online_checked.
      assert (forall st d d', st <> S_OK -> reg_lines a seed d d' (RPartialFit A X y n) (RRStatus st) = []) as Hno.
      { intros st d d' H. unfold reg_lines. destruct (ra_verbose a); [|done]. by destruct st. }
      repeat match goal with |- (let* _ := ?o in _) = _ => lazymatch o with reg_fit_online _ _ _ _ _ _ => fail | _ => destruct o; cbn [obind]; try done end
      | |- (if ?b then _ else _) = _ => destruct b; [cbn [obind]; by rewrite Hno, app_nil_r|] end.
      rewrite (reg_online_logged _ _ _ _ _ _ (rh_verbose _ _ Hh)). destruct (reg_fit_online S A e X y n) as [[st' e2]| | |] eqn:Eo; try done. cbn [obind].
      apply reg_online_ok in Eo as ->. reflexivity.
    Qed.
  End Reg.

  Lemma clf_run_logged_snoc (e : est) os o w : clf_run_logged S A e (os ++ [o]) w =
    (let* '(rs, e1, w1) := clf_run_logged S A e os w in let* '(r, e2, w2) := clf_step_logged S A e1 o w1 in Ret (rs ++ [r], e2, w2)).
  Proof.
    unfold clf_run_logged. rewrite ofold_app. destruct (ofold os ([], e, w) _) as [[[rs e1] w1]| | |]; cbn; try done.
    by destruct (clf_step_logged S A e1 o w1) as [[[r e2] w2]| | |].
  Qed.
  Lemma reg_run_logged_snoc (e : est) os o w : reg_run_logged S A e (os ++ [o]) w =
    (let* '(rs, e1, w1) := reg_run_logged S A e os w in let* '(r, e2, w2) := reg_step_logged S A e1 o w1 in Ret (rs ++ [r], e2, w2)).
  Proof.
    unfold reg_run_logged. rewrite ofold_app. destruct (ofold os ([], e, w) _) as [[[rs e1] w1]| | |]; cbn; try done.
    by destruct (reg_step_logged S A e1 o w1) as [[[r e2] w2]| | |].
  Qed.
  Lemma clf_step_logged_eq a seed (e : est) d o w : ca_seed a = Some seed -> clf_has a (e_params e) ->
    is_fitted A (e_ta e) = (match d with Some _ => true | None => false end) ->
    clf_step_logged S A e o w =
    (let* '(r, e') := clf_step S A e o in Ret (r, e', w ++ clf_lines a seed d (clf_dims_after d o r) o r)).
  Proof.
    intros Hs Hh Hf. destruct o as [X y ml n|X y ml n|x|X|x|X|X y]; unfold clf_step_logged.
    3-7: destruct (clf_step S A e _) as [[r e']| | |]; cbn [obind]; try done; unfold clf_lines; destruct (ca_verbose a); by rewrite app_nil_r.
    - rewrite (clf_fit_logged_eq a seed Hs e X y ml n w Hh). cbn [clf_step]. destruct (clf_fit S A e X y ml n) as [[st e']| | |]; try done; destruct st; cbn [obind clf_dims_after reg_dims_after]; unfold clf_lines, reg_lines; by repeat case_match.
    - unfold clf_partial_fit_logged, clf_partial_fit. cbn [clf_step]. unfold clf_partial_fit. rewrite Hf. destruct d as [[L nf]|].
      + rewrite (clf_more_logged a seed e L nf X y ml n w Hh). destruct (clf_fit_online_checked S A e X y ml n) as [[st e']| | |]; done.
      + rewrite (clf_fit_logged_eq a seed Hs e X y ml n w Hh). destruct (clf_fit S A e X y ml n) as [[st e']| | |]; try done; destruct st; cbn [obind clf_dims_after]; unfold clf_lines; by repeat case_match.
  Qed.
  Lemma reg_step_logged_eq a seed (e : est) d o w : ra_seed a = Some seed -> reg_has a (e_params e) ->
    is_fitted A (e_ta e) = (match d with Some _ => true | None => false end) ->
    reg_step_logged S A e o w =
    (let* '(r, e') := reg_step S A e o in Ret (r, e', w ++ reg_lines a seed d (reg_dims_after d o r) o r)).
  Proof.
    intros Hs Hh Hf. destruct o as [X y n|X y n|x|X]; unfold reg_step_logged.
    3-4: destruct (reg_step S A e _) as [[r e']| | |]; cbn [obind]; try done; unfold reg_lines; destruct (ra_verbose a); by rewrite app_nil_r.
    - rewrite (reg_fit_logged_eq a seed Hs e X y n w Hh). cbn [reg_step]. destruct (reg_fit S A e X y n) as [[st e']| | |]; try done; destruct st; cbn [obind clf_dims_after reg_dims_after]; unfold clf_lines, reg_lines; by repeat case_match.
    - unfold reg_partial_fit_logged, reg_partial_fit. cbn [reg_step]. unfold reg_partial_fit. rewrite Hf. destruct d as [nf|].
      + rewrite (reg_more_logged a seed e nf X y n w Hh). destruct (reg_fit_online_checked S A e X y n) as [[st e']| | |]; done.
      + rewrite (reg_fit_logged_eq a seed Hs e X y n w Hh). destruct (reg_fit S A e X y n) as [[st e']| | |]; try done; destruct st; cbn [obind reg_dims_after]; unfold reg_lines; by repeat case_match.
  Qed.
End Logged.

Section Runs.
  Context {R : rnd} (g_ok : eG R -> Prop) (f_ok : eF R -> Prop) (HR : rnd_ok R g_ok f_ok).
  Context (S : sch) (HS : sch_ok S).
  Context (A : algo R) (vw : aview A) (HA : tsetlini_algo R A vw).

  Lemma clf_run_logged_eq a p seed os w : clf_created a p -> ca_seed a = Some seed -> Forall (clf_op_phys A vw) os ->
    clf_run_logged S A (construct S A p) os w =
    (let* '(rs, e) := clf_run S A (construct S A p) os in Ret (rs, e, w ++ clf_log a seed os rs)).
  Proof.
    intros Hc Hs. induction os as [|o os IH] using rev_ind; intros Hp; [cbn; by rewrite app_nil_r|].
    apply Forall_app in Hp as [Hp Ho]. rewrite clf_run_logged_snoc, clf_run_snoc, IH by done.
    destruct (clf_run S A (construct S A p) os) as [[rs e]| | |] eqn:E; try done. cbn [obind].
    pose proof (clf_run_len _ _ _ _ _ _ E) as El.
    destruct (clf_hist_laws g_ok f_ok HR A vw HA a (cc_valid _ _ Hc)) as (I & E1n & E1p & E2 & Lw).
    pose proof (clf_history_at g_ok f_ok HR S HS A vw _ _ I E1n E1p E2 Lw a p os rs e Hc eq_refl eq_refl (conj Hp E)) as Hat.
    destruct (clf_at_has g_ok f_ok S A True True I a p _ e (cc_has _ _ Hc) Hat) as (Hh & _ & _).
    rewrite (clf_step_logged_eq S A a seed e (clf_dims_of os rs) o _ Hs Hh).
    2:{ destruct (clf_dims_of os rs) as [[L nf]|]; [|cbn in Hat; subst e; apply is_fitted_construct].
        destruct Hat as [Hf _]. exact (clf_fitted_true g_ok f_ok S A vw True True _ _ I E1n E1p E2 (Lw _ _) a (cc_valid _ _ Hc) e L nf Hf). }
    destruct (clf_step S A e o) as [[r e']| | |]; try done. cbn [obind].
    rewrite clf_log_snoc, clf_dims_snoc by done. by rewrite app_assoc.
  Qed.
  Lemma reg_run_logged_eq a p seed os w : reg_created a p -> ra_seed a = Some seed -> Forall (reg_op_phys A vw) os ->
    reg_run_logged S A (construct S A p) os w =
    (let* '(rs, e) := reg_run S A (construct S A p) os in Ret (rs, e, w ++ reg_log a seed os rs)).
  Proof.
    intros Hc Hs. induction os as [|o os IH] using rev_ind; intros Hp; [cbn; by rewrite app_nil_r|].
    apply Forall_app in Hp as [Hp Ho]. rewrite reg_run_logged_snoc, reg_run_snoc, IH by done.
    destruct (reg_run S A (construct S A p) os) as [[rs e]| | |] eqn:E; try done. cbn [obind].
    pose proof (reg_run_len _ _ _ _ _ _ E) as El.
    destruct (reg_hist_laws g_ok f_ok HR A vw HA a (rc_valid _ _ Hc)) as (I & E1n & E1p & E2 & Lw).
    pose proof (reg_history_at g_ok f_ok HR S HS A vw _ _ I E1n E1p E2 Lw a p os rs e Hc eq_refl eq_refl (conj Hp E)) as Hat.
    destruct (reg_at_has g_ok S A True True I a p _ e (rc_has _ _ Hc) Hat) as (Hh & _ & _).
    rewrite (reg_step_logged_eq S A a seed e (reg_dims_of os rs) o _ Hs Hh).
    2:{ destruct (reg_dims_of os rs) as [nf|]; [|cbn in Hat; subst e; apply is_fitted_construct].
        destruct Hat as [Hf _]. exact (reg_fitted_true g_ok S A vw True True _ _ I E1n E1p E2 (Lw _ _) a (rc_valid _ _ Hc) e nf Hf). }
    destruct (reg_step S A e o) as [[r e']| | |]; try done. cbn [obind].
    rewrite reg_log_snoc, reg_dims_snoc by done. by rewrite app_assoc.
  Qed.
End Runs.

Section Reports.
  Context {R : rnd} (g_ok : eG R -> Prop) (f_ok : eF R -> Prop) (HR : rnd_ok R g_ok f_ok).
  Context (S : sch) (HS : sch_ok S).
  Context (A : algo R) (vw : aview A) (HA : tsetlini_algo R A vw).

  Lemma clf_log_spec a p seed os rs e w : clf_created a p -> ca_seed a = Some seed -> Forall (clf_op_phys A vw) os ->
    clf_run_logged S A (construct S A p) os [] = Ret (rs, e, w) <->
    clf_run S A (construct S A p) os = Ret (rs, e) /\ w = clf_log a seed os rs.
  Proof.
    intros Hc Hs Hp. rewrite (clf_run_logged_eq g_ok f_ok HR S HS A vw HA a p seed os [] Hc Hs Hp).
    destruct (clf_run S A (construct S A p) os) as [[rs' e']| | |]; cbn [obind]; [|by split; [|intros []]..].
    split; [by intros [= -> -> <-]|by intros [[= -> ->] ->]].
  Qed.
  Lemma reg_log_spec a p seed os rs e w : reg_created a p -> ra_seed a = Some seed -> Forall (reg_op_phys A vw) os ->
    reg_run_logged S A (construct S A p) os [] = Ret (rs, e, w) <->
    reg_run S A (construct S A p) os = Ret (rs, e) /\ w = reg_log a seed os rs.
  Proof.
    intros Hc Hs Hp. rewrite (reg_run_logged_eq g_ok f_ok HR S HS A vw HA a p seed os [] Hc Hs Hp).
    destruct (reg_run S A (construct S A p) os) as [[rs' e']| | |]; cbn [obind]; [|by split; [|intros []]..].
    split; [by intros [= -> -> <-]|by intros [[= -> ->] ->]].
  Qed.
  Lemma clf_silent a p os rs e w : clf_created a p -> ca_verbose a = false -> Forall (clf_op_phys A vw) os ->
    clf_run_logged S A (construct S A p) os [] = Ret (rs, e, w) -> w = [].
  Proof.
    intros Hc Hv Hp H. destruct (ch_seed _ _ (cc_has _ _ Hc)) as (seed & Es & _).
    apply (proj1 (clf_log_spec a p seed os rs e w Hc Es Hp)) in H. destruct H as [_ ->]. by apply clf_log_silent.
  Qed.
  Lemma reg_silent a p os rs e w : reg_created a p -> ra_verbose a = false -> Forall (reg_op_phys A vw) os ->
    reg_run_logged S A (construct S A p) os [] = Ret (rs, e, w) -> w = [].
  Proof.
    intros Hc Hv Hp H. destruct (rh_seed _ _ (rc_has _ _ Hc)) as (seed & Es & _).
    apply (proj1 (reg_log_spec a p seed os rs e w Hc Es Hp)) in H. destruct H as [_ ->]. by apply reg_log_silent.
  Qed.
End Reports.
