(** * Facts about equality of estimators: what == means on each component; calls do not see the sign of a zero parameter. *)
From Verif Require Import FloatFacts.
From Verif Require Export Equality MtInst SimFacts.
From Coq Require Import FunctionalExtensionality.
From stdpp Require Import list.
Local Open Scope Z_scope.

(** ** Generators: a float buffer of a generator never holds a negative zero *)
Definition clean32 (v : float32) : Prop := fin32 v /\ v <> S754_zero true.
Definition frng_clean (f : frng) : Prop := mt_ok f_unit f /\ Forall clean32 (mt_res f).
Lemma frng_clean_ok f : frng_clean f -> frng_ok f.
Proof. intros [H1 H2]. split; [done|]. eapply Forall_impl; [exact H2|]. by intros v []. Qed.
Lemma frng_post_clean y : w32 y -> clean32 (frng_post y).
Proof. intros Hy. destruct (frng_post_ok y Hy) as [[H _] Hf]. split; [done|]. intros E. by rewrite E in H. Qed.
Lemma frng_init_clean seed : frng_clean (frng_init seed).
Proof. split; [by apply init_ok|]. apply res_init. by split. Qed.
Lemma frng_next_clean f : frng_clean f -> f_unit (frng_next f).1 /\ frng_clean (frng_next f).2.
Proof.
  intros [H1 H2]. unfold frng_next. destruct (rand_ok (S754_zero false) frng_post f_unit (fun y H => proj1 (frng_post_ok y H)) f H1) as [J1 J2].
  split; [exact J1|]. split; [exact J2|]. eapply res_rand; [|exact H1|exact H2]. intros y Hy. by apply frng_post_clean.
Qed.
Lemma mt_rnd_clean sh l fuel b1 b2 : shuffle_ok sh -> rnd_ok (mt_rnd sh l fuel b1 b2) irng_ok frng_clean.
Proof.
  intros Hsh. destruct (mt_rnd_ok sh l fuel b1 b2 Hsh) as [H1 H2 _ _ H5]. constructor; [exact H1|exact H2| | |exact H5]; cbn.
  - apply frng_init_clean.
  - intros f Hf. destruct (frng_next_clean f Hf) as [[] ?]. done.
Qed.
Lemma SFeqb_cases x y : SFeqb x y = true -> x = y \/ (exists s s', x = S754_zero s /\ y = S754_zero s').
Proof.
  unfold SFeqb. destruct x as [s|s| |s m e], y as [s'|s'| |s' m' e']; cbn; try (by destruct s); try (by destruct s'); try done.
  - intros _. right. eauto.
  - by destruct s, s'; auto.
  - destruct s, s'; try done; destruct (Z.compare_spec e e') as [->| |]; try done; intros H; left;
      (assert (Pos.compare_cont Eq m m' = Eq) as E by (destruct (Pos.compare_cont Eq m m'); done));
      apply Pos.compare_eq in E; by subst.
Qed.
Lemma frng_eqb_eq a b : frng_clean a -> frng_clean b -> mt_eqb SFeqb a b = true -> a = b.
Proof.
  intros [_ Fa] [_ Fb] H. unfold mt_eqb in H. apply andb_true_iff in H as [H H3]. apply andb_true_iff in H as [H1 H2]. apply Nat.eqb_eq in H1.
  apply forallb_combine in H2. apply forallb_combine, Forall2_eqb in H3. destruct a as [ia ra ma], b as [ib rb mb]. cbn in *. subst. f_equal.
  induction H2 as [|x y l l' E _ IH]; [done|]. inversion Fa as [|? ? [Hx Nx]]; inversion Fb as [|? ? [Hy Ny]]; subst. f_equal; [|by apply IH].
  apply SFeqb_cases in E as [->|([] & [] & -> & ->)]; done.
Qed.

(** ** Parameters: == holds when the values are the same up to the sign of zeros, and none is a NaN *)
Definition unsigned_zero (x : float32) : float32 := match x with S754_zero _ => S754_zero false | _ => x end.
Definition cz (v : pvalue) : pvalue := match v with PReal x => PReal (unsigned_zero x) | _ => v end.
Definition not_nan (v : pvalue) : Prop := v <> PReal S754_nan.
Lemma SFeqb_iff x y : SFeqb x y = true <-> unsigned_zero x = unsigned_zero y /\ x <> S754_nan.
Proof.
  split.
  - intros H. split; [|by intros ->]. apply SFeqb_cases in H as [->|(s & s' & -> & ->)]; done.
  - intros [H Hn]. destruct x as [s|s| |s m e], y as [s'|s'| |s' m' e']; cbn in H; try done.
    + injection H as ->. by destruct s'.
    + injection H as -> -> ->. unfold SFeqb. cbn. rewrite Z.compare_refl.
      rewrite (proj2 (Pos.compare_eq_iff m' m') eq_refl : Pos.compare_cont Eq m' m' = Eq). by destruct s'.
Qed.
Lemma pv_eqb_iff v w : pv_eqb v w = true <-> cz v = cz w /\ not_nan v.
Proof.
  destruct v, w; cbn; unfold not_nan; try (by split; [done|intros [? ?]]).
  - rewrite Z.eqb_eq. split; [intros ->; split; congruence|intros [[= ->] _]; done].
  - rewrite Z.eqb_eq. split; [intros ->; split; congruence|intros [[= ->] _]; done].
  - rewrite SFeqb_iff. split; intros [E H]; (split; [congruence|]); congruence.
  - rewrite Bool.eqb_true_iff. split; [intros ->; split; congruence|intros [[= ->] _]; done].
  - rewrite String.eqb_eq. split; [intros ->; split; congruence|intros [[= ->] _]; done].
Qed.
Lemma params_eqb_iff (p q : params) : params_eqb p q = true <-> cz <$> p = cz <$> q /\ map_Forall (fun _ v => not_nan v) p.
Proof.
  unfold params_eqb. rewrite andb_true_iff, Nat.eqb_eq, forallb_forall. split.
  - intros [Hs H].
    assert (forall k v, p !! k = Some v -> exists w, q !! k = Some w /\ cz v = cz w /\ not_nan v) as Hpq.
    { intros k v Hk. specialize (H (k, v)). cbv beta iota in H. destruct (q !! k) as [w|].
      - exists w. split; [done|]. apply pv_eqb_iff, H. apply elem_of_list_In, elem_of_map_to_list, Hk.
      - enough (false = true) by done. apply H. apply elem_of_list_In, elem_of_map_to_list, Hk. }
    assert (dom p = dom q) as Hd.
    { assert (dom p ⊆ dom q) as Hsub.
      { intros k. rewrite !elem_of_dom. intros [v Hv]. destruct (Hpq k v Hv) as (w & -> & _). eauto. }
      apply set_eq. intros k. split; [apply Hsub|]. intros Hk. destruct (decide (k ∈ dom p)) as [|Hn]; [done|]. exfalso.
      assert (size (dom p ∪ {[k]}) <= size (dom q))%nat as Hle by (apply subseteq_size; set_solver).
      rewrite size_union, size_singleton, !size_dom in Hle by set_solver. lia. }
    split.
    + apply map_eq. intros k. rewrite !lookup_fmap. destruct (p !! k) as [v|] eqn:Ep.
      * destruct (Hpq k v Ep) as (w & -> & E & _). cbn. by rewrite E.
      * assert (k ∉ dom q) as Hn by (rewrite <- Hd; by apply not_elem_of_dom). apply not_elem_of_dom in Hn. by rewrite Hn.
    + intros k v Hk. by destruct (Hpq k v Hk) as (w & _ & _ & Hn).
  - intros [E Hn]. split.
    + apply (f_equal (fun m => size (dom m))) in E. by rewrite !dom_fmap, !size_dom in E.
    + intros [k v] Hin. apply elem_of_list_In, elem_of_map_to_list in Hin. apply (f_equal (fun m : params => m !! k)) in E.
      rewrite !lookup_fmap, Hin in E. destruct (q !! k) as [w|]; [|done]. apply pv_eqb_iff. split; [by injection E|by eapply Hn].
Qed.

(** ** Matrices *)
Lemma nm_eqb_eq m1 m2 : nm_eqb m1 m2 = true <-> m1 = m2.
Proof.
  unfold nm_eqb, vec_eqb. rewrite !andb_true_iff, Z.eqb_eq, !Nat.eqb_eq, bool_decide_eq_true. destruct m1, m2; cbn. split.
  - intros [[[-> ->] ->] ->]. done.
  - by intros [= -> -> -> ->].
Qed.
Lemma bm_eqb_eq m1 m2 : bm_eqb m1 m2 = true -> bm_row_blocks m1 = bm_row_blocks m2 -> m1 = m2.
Proof.
  unfold bm_eqb. rewrite !andb_true_iff, !Nat.eqb_eq, bool_decide_eq_true. destruct m1, m2; cbn. intros [[-> ->] ->] ->. done.
Qed.
Lemma bm_eqb_refl m : bm_eqb m m = true.
Proof. unfold bm_eqb. by rewrite !Nat.eqb_refl, bool_decide_eq_true_2. Qed.

(** ** Calls commute with dropping the sign of zeros among the parameters *)
Lemma obind_assoc {A B C} (o : outcome A) (f : A -> outcome B) (g : B -> outcome C) :
  obind (obind o f) g = obind o (fun a => obind (f a) g).
Proof. by destruct o. Qed.
Lemma obind_ext {A B} (o : outcome A) (f g : A -> outcome B) : (forall a, o = Ret a -> f a = g a) -> obind o f = obind o g.
Proof. intros H. destruct o; cbn; auto. Qed.

Definition s_nonzero (p : params) : Prop := forall b, p !! "s"%string <> Some (PReal (S754_zero b)).
(** the sign of a product *)
Definition signed (s : bool) (x : spec_float) : Prop :=
  match x with S754_zero s' | S754_infinity s' | S754_finite s' _ _ => s' = s | S754_nan => True end.
Lemma round_signed s m e l : signed s (binary_round_aux 24 128 s m e l).
Proof.
  unfold binary_round_aux. destruct (shr_fexp 24 128 m e l) as [r e']. destruct (shr_fexp 24 128 _ e' loc_Exact) as [r' e''].
  destruct (shr_m r'); cbn; [done| |done]. by destruct (_ <=? _).
Qed.
Lemma mul_signed x y s s' : signed s x -> signed s' y -> signed (xorb s s') (f32_mul x y).
Proof.
  unfold f32_mul, SFmul. destruct x, y; cbn [signed]; intros; subst; try done. apply round_signed.
Qed.
Lemma loss_unsigned name C1 : make_loss_fn name (unsigned_zero C1) = make_loss_fn name C1.
Proof.
  destruct C1 as [[]| | |]; try done. cbn [unsigned_zero]. unfold make_loss_fn.
  destruct (_ || _); [done|]. destruct (_ || _); [done|]. destruct (_ =? _)%string.
  - done.
  - destruct (_ =? _)%string; [|done]. f_equal. apply functional_extensionality. intros x.
    change (f32_sub f32_one (S754_zero true)) with f32_one. change (f32_sub f32_one (S754_zero false)) with f32_one.
    destruct x as [[]|[]| |s m e]; try reflexivity. 
    cbn [f32_abs SFabs]. change (f32_mul (S754_zero true) (S754_finite false m e)) with (S754_zero true).
    change (f32_mul (S754_zero false) (S754_finite false m e)) with (S754_zero false).
    remember (f32_mul (f32_mul f32_one (S754_finite s m e)) (S754_finite s m e)) as q eqn:Eq.
    assert (q <> S754_zero true) as Hq.
    { subst q. intros E. assert (signed (xorb (xorb false s) s) (S754_zero true)) as Q.
      { rewrite <- E. apply mul_signed; [|done]. by apply mul_signed. }
      by destruct s. }
    unfold f32_add, SFadd. by destruct q as [[]|[]| |[] ? ?].
Qed.

Section Accessors.
  Context (p : params).
  Notation q := (cz <$> p).
  Lemma cz_at k : p_at q k = (let* v := p_at p k in Ret (cz v)).
  Proof. unfold p_at. rewrite lookup_fmap. by destruct (p !! k). Qed.
  Ltac t := unfold at_int, at_seed, at_bool, at_str; rewrite cz_at; unfold p_at; destruct (p !! _) as [v|]; cbn; [by destruct v|done].
  Lemma cz_int k : at_int q k = at_int p k. Proof. t. Qed.
  Lemma cz_seed k : at_seed q k = at_seed p k. Proof. t. Qed.
  Lemma cz_bool k : at_bool q k = at_bool p k. Proof. t. Qed.
  Lemma cz_str k : at_str q k = at_str p k. Proof. t. Qed.
  Lemma cz_real k : at_real q k = (let* x := at_real p k in Ret (unsigned_zero x)).
  Proof. unfold at_real. rewrite cz_at. unfold p_at. destruct (p !! _) as [v|]; cbn; [by destruct v|done]. Qed.
  Lemma cz_s : s_nonzero p -> P_s q = P_s p.
  Proof.
    intros H. unfold P_s. rewrite cz_real. unfold at_real, p_at. destruct (p !! _) as [v|] eqn:E; cbn; [|done]. destruct v as [| |x| | |]; try done.
    cbn. destruct x; try done. by destruct (H s).
  Qed.
  Lemma cz_insert k z : cz <$> <[k := PInt z]> p = <[k := PInt z]> q.
  Proof. by rewrite fmap_insert. Qed.
End Accessors.
Lemma s_nonzero_insert p k v : k <> "s"%string -> s_nonzero p -> s_nonzero (<[k := v]> p).
Proof. intros Hk H b. rewrite lookup_insert_ne by done. apply H. Qed.

Lemma s_nonzero_cz p : s_nonzero p -> s_nonzero (cz <$> p).
Proof.
  intros H b. rewrite lookup_fmap. destruct (p !! "s"%string) as [v|] eqn:E; [|done]. intros Q. cbn in Q. injection Q as Q.
  destruct v as [| |x| | |]; try done. destruct x as [b'| | |]; try done. by destruct (H b').
Qed.
Section AccessorsP.
  Context (p : params).
  Notation q := (cz <$> p).
  Ltac t := unfold P_n_jobs, P_counting_type, P_tile, P_random_state, P_verbose, P_clf_outputs, P_clf_clauses, P_number_of_labels, P_number_of_features, P_threshold,
    P_boost, P_number_of_states, P_outputs_per_label, P_clauses_per_label, P_reg_clauses, P_reg_outputs, P_weighted, P_box_muller, P_max_weight, P_loss_fn;
    rewrite ?cz_int, ?cz_seed, ?cz_bool, ?cz_str; done.
  Lemma pz_n_jobs : P_n_jobs q = P_n_jobs p. Proof. t. Qed.
  Lemma pz_ct : P_counting_type q = P_counting_type p. Proof. t. Qed.
  Lemma pz_tile : P_tile q = P_tile p. Proof. t. Qed.
  Lemma pz_seed : P_random_state q = P_random_state p. Proof. t. Qed.
  Lemma pz_verbose : P_verbose q = P_verbose p. Proof. t. Qed.
  Lemma pz_outputs : P_clf_outputs q = P_clf_outputs p. Proof. t. Qed.
  Lemma pz_clauses : P_clf_clauses q = P_clf_clauses p. Proof. t. Qed.
  Lemma pz_labels : P_number_of_labels q = P_number_of_labels p. Proof. t. Qed.
  Lemma pz_features : P_number_of_features q = P_number_of_features p. Proof. t. Qed.
  Lemma pz_threshold : P_threshold q = P_threshold p. Proof. t. Qed.
  Lemma pz_boost : P_boost q = P_boost p. Proof. t. Qed.
  Lemma pz_states : P_number_of_states q = P_number_of_states p. Proof. t. Qed.
  Lemma pz_opl : P_outputs_per_label q = P_outputs_per_label p. Proof. t. Qed.
  Lemma pz_rclauses : P_reg_clauses q = P_reg_clauses p. Proof. t. Qed.
  Lemma pz_routputs : P_reg_outputs q = P_reg_outputs p. Proof. t. Qed.
  Lemma pz_weighted : P_weighted q = P_weighted p. Proof. t. Qed.
  Lemma pz_bm : P_box_muller q = P_box_muller p. Proof. t. Qed.
  Lemma pz_mw : P_max_weight q = P_max_weight p. Proof. t. Qed.
  Lemma pz_loss : P_loss_fn q = P_loss_fn p. Proof. t. Qed.
End AccessorsP.

Section Commute.
  Context {R : rnd} (S : sch) (A : algo R).
  Notation est := (est (a_pol A) (eS S) (eG R) (eF R)).
  Definition ecz (e : est) : est := with_params S A (cz <$> e_params e) e.
  (** the outcome of a call, with the estimator it leaves changed in the same way *)
  Definition then_cz {RES} (o : outcome (RES * est)) : outcome (RES * est) := let* '(r, e) := o in Ret (r, ecz e).
  Lemma then_cz_bind {B RES} (o : outcome B) (f : B -> outcome (RES * est)) : then_cz (obind o f) = obind o (fun b => then_cz (f b)).
  Proof. apply obind_assoc. Qed.

  Ltac acc := cbn [e_params e_ta e_cache e_igen e_fgen ecz with_params];
    rewrite ?pz_n_jobs, ?pz_ct, ?pz_tile, ?pz_seed, ?pz_verbose, ?pz_outputs, ?pz_clauses, ?pz_labels, ?pz_features, ?pz_threshold, ?pz_boost,
      ?pz_states, ?pz_opl, ?pz_rclauses, ?pz_routputs, ?pz_weighted, ?pz_bm, ?pz_mw, ?pz_loss.
  Ltac split_pairs := repeat match goal with x : prod _ _ |- _ => destruct x end.
  Ltac go := repeat (rewrite then_cz_bind; apply obind_ext; intros ? _).
  Ltac chk := rewrite then_cz_bind; apply obind_ext; intros ? _; destruct (decide _); [done|].

  Lemma cz_check1 (e : est) x : check_for_predict S A (ecz e) x = check_for_predict S A e x.
  Proof. unfold check_for_predict. by acc. Qed.
  Lemma cz_check (e : est) X : check_for_predict_batch S A (ecz e) X = check_for_predict_batch S A e X.
  Proof. unfold check_for_predict_batch. by acc. Qed.

  Lemma cz_predict1 e x : clf_predict1 S A (ecz e) x = then_cz (clf_predict1 S A e x).
  Proof. unfold clf_predict1. rewrite cz_check1. chk. acc. by go. Qed.
  Lemma cz_predict e X : clf_predict S A (ecz e) X = then_cz (clf_predict S A e X).
  Proof. unfold clf_predict. rewrite cz_check. chk. acc. go. by split_pairs. Qed.
  Lemma cz_decision1 e x : clf_decision1 S A (ecz e) x = then_cz (clf_decision1 S A e x).
  Proof. unfold clf_decision1. rewrite cz_check1. chk. acc. by go. Qed.
  Lemma cz_decision e X : clf_decision S A (ecz e) X = then_cz (clf_decision S A e X).
  Proof. unfold clf_decision. rewrite cz_check. chk. acc. go. by split_pairs. Qed.
  Lemma cz_evaluate e X y : clf_evaluate S A (ecz e) X y = then_cz (clf_evaluate S A e X y).
  Proof. unfold clf_evaluate. acc. go. by split_pairs. Qed.
  Lemma cz_rpredict1 e x : reg_predict1 S A (ecz e) x = then_cz (reg_predict1 S A e x).
  Proof. unfold reg_predict1. rewrite cz_check1. chk. acc. by go. Qed.
  Lemma cz_rpredict e X : reg_predict S A (ecz e) X = then_cz (reg_predict S A e X).
  Proof. unfold reg_predict. rewrite cz_check. chk. acc. go. by split_pairs. Qed.

  Lemma cz_online e X y ep : s_nonzero (e_params e) -> clf_fit_online S A (ecz e) X y ep = then_cz (clf_fit_online S A e X y ep).
  Proof. intros Hs. unfold clf_fit_online. acc. rewrite cz_s by done. go. by split_pairs. Qed.
  Lemma cz_ronline e X y ep : s_nonzero (e_params e) -> reg_fit_online S A (ecz e) X y ep = then_cz (reg_fit_online S A e X y ep).
  Proof.
    intros Hs. unfold reg_fit_online. acc. rewrite cz_s by done. do 10 (rewrite then_cz_bind; apply obind_ext; intros ? _).
    unfold P_loss_C1. rewrite cz_real, obind_assoc. rewrite then_cz_bind; apply obind_ext; intros ? _. cbn [obind]. rewrite loss_unsigned.
    go. by split_pairs.
  Qed.
  Lemma cz_creset p c : s_nonzero p -> clf_cache_reset S (cz <$> p) c = clf_cache_reset S p c.
  Proof. intros Hs. unfold clf_cache_reset. acc. by rewrite cz_s. Qed.
  Lemma cz_rreset p c : s_nonzero p -> reg_cache_reset S (cz <$> p) c = reg_cache_reset S p c.
  Proof. intros Hs. unfold reg_cache_reset. acc. by rewrite cz_s. Qed.
  Lemma cz_init cl ou reset e : cl (cz <$> e_params e) = cl (e_params e) -> ou (cz <$> e_params e) = ou (e_params e) ->
    (forall c, reset (cz <$> e_params e) c = reset (e_params e) c) ->
    initialize_state S A cl ou reset (ecz e) = (let* e1 := initialize_state S A cl ou reset e in Ret (ecz e1)).
  Proof.
    intros H1 H2 H3. unfold initialize_state. acc. rewrite H1, H2.
    do 8 (rewrite obind_assoc; apply obind_ext; intros ? _). rewrite obind_assoc. apply obind_ext. intros [[m pol] g] _. rewrite H3.
    rewrite obind_assoc. apply obind_ext. done.
  Qed.
  Lemma init_params cl ou reset e e1 : initialize_state S A cl ou reset e = Ret e1 -> e_params e1 = e_params e.
  Proof.
    unfold initialize_state. intros H. repeat (apply obind_ret_inv in H as (? & _ & H)).
    repeat match goal with x : prod _ _ |- _ => destruct x end. repeat (apply obind_ret_inv in H as (? & _ & H)).
    by injection H as <-.
  Qed.
  Lemma cz_fit e X y ml ep : s_nonzero (e_params e) -> clf_fit S A (ecz e) X y ml ep = then_cz (clf_fit S A e X y ml ep).
  Proof.
    intros Hs. unfold clf_fit. chk. rewrite then_cz_bind; apply obind_ext; intros hi _. rewrite then_cz_bind; apply obind_ext; intros hi1 _. cbv zeta.
    chk. rewrite then_cz_bind; apply obind_ext; intros nf0 _. rewrite then_cz_bind; apply obind_ext; intros nf _.
    set (p := <["number_of_features" := PInt nf]> (<["number_of_labels" := PInt (hi1 `max` ml)]> (e_params e))).
    assert (s_nonzero p) as Hp by (by repeat apply s_nonzero_insert).
    replace (with_params S A (<["number_of_features" := PInt nf]> (<["number_of_labels" := PInt (hi1 `max` ml)]> (e_params (ecz e)))) (ecz e))
      with (ecz (with_params S A p e)) by (unfold p, ecz, with_params; cbn [e_params e_ta e_cache e_igen e_fgen]; by rewrite !cz_insert).
    unfold clf_initialize. rewrite cz_init, obind_assoc, then_cz_bind.
    - apply obind_ext. intros e1 E1. cbn [obind]. apply cz_online. apply init_params in E1. by rewrite E1.
    - apply pz_clauses.
    - apply pz_outputs.
    - intros c. by apply cz_creset.
  Qed.
  Lemma cz_rfit e X y ep : s_nonzero (e_params e) -> reg_fit S A (ecz e) X y ep = then_cz (reg_fit S A e X y ep).
  Proof.
    intros Hs. unfold reg_fit. chk. acc. rewrite then_cz_bind; apply obind_ext; intros T _. cbv zeta.
    destruct (decide _); [done|]. rewrite then_cz_bind; apply obind_ext; intros nf0 _. rewrite then_cz_bind; apply obind_ext; intros nf _.
    set (p := <["number_of_features" := PInt nf]> (e_params e)).
    assert (s_nonzero p) as Hp by (by repeat apply s_nonzero_insert).
    replace (with_params S A (<["number_of_features" := PInt nf]> (cz <$> e_params e)) (ecz e))
      with (ecz (with_params S A p e)) by (unfold p, ecz, with_params; cbn [e_params e_ta e_cache e_igen e_fgen]; by rewrite !cz_insert).
    unfold reg_initialize. rewrite cz_init, obind_assoc, then_cz_bind.
    - apply obind_ext. intros e1 E1. cbn [obind]. apply cz_ronline. apply init_params in E1. by rewrite E1.
    - apply pz_rclauses.
    - apply pz_routputs.
    - intros c. by apply cz_rreset.
  Qed.
  Lemma cz_partial e X y ml ep : s_nonzero (e_params e) -> clf_partial_fit S A (ecz e) X y ml ep = then_cz (clf_partial_fit S A e X y ml ep).
  Proof.
    intros Hs. unfold clf_partial_fit. cbn [e_ta ecz with_params]. destruct (is_fitted A (e_ta e)); [|by apply cz_fit].
    unfold clf_fit_online_checked. acc. chk. rewrite then_cz_bind; apply obind_ext; intros nf _. chk.
    rewrite then_cz_bind; apply obind_ext; intros L _. rewrite then_cz_bind; apply obind_ext; intros ml' _. chk. by apply cz_online.
  Qed.
  Lemma cz_rpartial e X y ep : s_nonzero (e_params e) -> reg_partial_fit S A (ecz e) X y ep = then_cz (reg_partial_fit S A e X y ep).
  Proof.
    intros Hs. unfold reg_partial_fit. cbn [e_ta ecz with_params]. destruct (is_fitted A (e_ta e)); [|by apply cz_rfit].
    unfold reg_fit_online_checked. acc. chk. rewrite then_cz_bind; apply obind_ext; intros nf _. chk.
    rewrite then_cz_bind; apply obind_ext; intros T _. cbv zeta. destruct (decide _); [done|]. by apply cz_ronline.
  Qed.
  Ltac wrap L := rewrite L by done; unfold then_cz; rewrite !obind_assoc; apply obind_ext; intros [? ?] _; done.
  Lemma cz_step e o : s_nonzero (e_params e) -> clf_step S A (ecz e) o = then_cz (clf_step S A e o).
  Proof.
    intros Hs. destruct o; cbn [clf_step].
    - wrap cz_fit. - wrap cz_partial. - wrap cz_predict1. - wrap cz_predict. - wrap cz_decision1. - wrap cz_decision. - wrap cz_evaluate.
  Qed.
  Lemma cz_rstep e o : s_nonzero (e_params e) -> reg_step S A (ecz e) o = then_cz (reg_step S A e o).
  Proof.
    intros Hs. destruct o; cbn [reg_step].
    - wrap cz_rfit. - wrap cz_rpartial. - wrap cz_rpredict1. - wrap cz_rpredict.
  Qed.
End Commute.
