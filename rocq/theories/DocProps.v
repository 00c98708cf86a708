(** * The documents of saved estimators answer as the estimators do. *)
From Verif Require Import TotalFacts StepFacts PropFacts OneStep.
From Verif Require Import StateProps TextIO JsonGrammar TextState TextSpec TextProps.
From Verif Require Import Document.
From stdpp Require Import list option.
Local Open Scope Z_scope.

(** ** Reading *)
Lemma member_find l k : member (JObj l) k = obj_find l k.
Proof.
  cbn [member]. induction l as [|[k' v] l IH]; [done|]. cbn [List.find obj_find fst]. rewrite (String.eqb_sym k' k).
  destruct (k =? k')%string; [done|]. exact IH.
Qed.
Lemma member_saved ms k v : last_value ms k = Some v -> member (reparse (jobject ms)) k = Some (reparse v).
Proof.
  intros H. apply at_reparse in H. revert H. unfold j_at. destruct (reparse (jobject ms)) as [| | | | | | |l]; try discriminate.
  intros H. rewrite member_find. destruct (obj_find l k); [by injection H as ->|done].
Qed.
Lemma integer_back z : integer (reparse (JInt z)) = Some z.
Proof. cbn [reparse]. by destruct (z <? 0). Qed.
Lemma mapM_back {A B C} (f : B -> option C) (h : A -> B) (g : A -> C) l : (forall a, f (h a) = Some (g a)) -> mapM f (map h l) = Some (map g l).
Proof. intros H. induction l as [|a l IH]; [done|]. cbn. rewrite H. cbn. by rewrite IH. Qed.
Lemma integers_back (f : Z -> json) l : (forall z, integer (reparse (f z)) = Some z) -> integers (reparse (JArr (map f l))) = Some l.
Proof. intros H. unfold integers. cbn [reparse array mbind option_bind]. rewrite map_map. rewrite (mapM_back _ _ (fun z => z)); [by rewrite map_id|done]. Qed.

Section Saved.
  Context {R : rnd} (A : algo R) (vw : aview A) (C : pol_codec (a_pol A)) (HC : tsetlini_codec R A vw C).
  Lemma saved_parts kind (S : sch) (e : est (a_pol A) (eS S) irng frng) : nm_wf (ta_matrix (e_ta e)) ->
    exists doc, to_json C S kind e = Ret doc /\
      rows_of (reparse doc) = Some (map (nm_row (ta_matrix (e_ta e))) (seq 0 (nm_rows (ta_matrix (e_ta e))))) /\
      weights_of (reparse doc) = Some (ta_weights (e_ta e)) /\
      forall k z, e_params e !! k = Some (PInt z) -> param_of (reparse doc) k = Some z.
  Proof.
    intros Hwf. unfold to_json, ta_to_json. rewrite nm_saved by done. cbn [obind].
    assert (forall (m v : json) (q : a_pol A), last_value (("matrix", m) :: ("weights", v) :: pc_write C q)%string "matrix" = Some m /\
      last_value (("matrix", m) :: ("weights", v) :: pc_write C q)%string "weights" = Some v) as Hta by (intros; destruct HC; by split).
    eexists. split; [reflexivity|]. split; [|split].
    - unfold rows_of. erewrite member_saved by reflexivity. cbn [mbind option_bind].
      erewrite member_saved; [cbn [mbind option_bind]|by apply Hta].
      erewrite member_saved by reflexivity. cbn [mbind option_bind reparse array]. rewrite map_map.
      apply mapM_back. intros r. exact (integers_back JInt (nm_row (ta_matrix (e_ta e)) r) integer_back).
    - unfold weights_of. erewrite member_saved by reflexivity. cbn [mbind option_bind].
      erewrite member_saved; [cbn [mbind option_bind]|by apply Hta].
      exact (integers_back JUns (ta_weights (e_ta e)) (fun z => eq_refl)).
    - intros k z Hk. unfold param_of. erewrite member_saved by reflexivity. cbn [mbind option_bind]. unfold params_to_json.
      erewrite member_saved; [|rewrite params_members, Hk; reflexivity]. cbn [mbind option_bind pv_to_json fmap option_map]. apply integer_back.
  Qed.
End Saved.
Lemma at_int_some p k z : at_int p k = Ret z -> p !! k = Some (PInt z).
Proof. unfold at_int, p_at. destruct (p !! k) as [[]|]; cbn; try done. by intros [= ->]. Qed.

(** ** Sums *)
Lemma sum_app l1 l2 : sum (l1 ++ l2) = sum l1 + sum l2.
Proof. induction l1 as [|z l1 IH]; [done|]. change (z + sum (l1 ++ l2) = z + sum l1 + sum l2). lia. Qed.
Lemma signed_sum f w n : signed_votes n f w = sum (map (fun i => if Nat.even i then (if f i then 1 + w i else 0) else - (if f i then 1 + w i else 0)) (seq 0 n)).
Proof.
  induction n as [|n IH]; [done|]. rewrite seq_S, map_app, sum_app. cbn [signed_votes map]. rewrite IH. cbn. destruct (f n), (Nat.even n); lia.
Qed.
Lemma total_sum f w n : total_votes n f w = sum (map (fun i => if f i then 1 + w i else 0) (seq 0 n)).
Proof. induction n as [|n IH]; [done|]. rewrite seq_S, map_app, sum_app. cbn [total_votes map]. rewrite IH. cbn. destruct (f n); lia. Qed.
Lemma limit_clamp lo hi v : lo <= hi -> limit lo hi v = clamp lo hi v.
Proof. intros H. unfold limit, clamp. destruct (Z.ltb_spec v lo); [lia|]. destruct (Z.ltb_spec hi v); lia. Qed.
Lemma forallb_same {A} (f g : A -> bool) l : (forall a, a ∈ l -> f a = g a) -> forallb f l = forallb g l.
Proof. induction l as [|a l IH]; intros H; [done|]. cbn. rewrite (H a) by left. f_equal. apply IH. intros b Hb. apply H. by right. Qed.
Lemma existsb_same {A} (f g : A -> bool) l : (forall a, a ∈ l -> f a = g a) -> existsb f l = existsb g l.
Proof. induction l as [|a l IH]; intros H; [done|]. cbn. rewrite (H a) by left. f_equal. apply IH. intros b Hb. apply H. by right. Qed.

Section Doc.
  Context {R : rnd} (A : algo R) (vw : aview A).
  (** stored automata decide what clauses include *)
  Definition by_sign (n nf : nat) (m : nmatrix) (q : a_pol A) : Prop :=
    nm_wf m /\ nm_rows m = (2 * n)%nat /\ nm_cols m = nf /\
    forall j k, (j < n)%nat -> (k < nf)%nat -> v_inc vw m q j k = (0 <=? nm_cell m (2 * j) k) /\ v_incn vw m q j k = (0 <=? nm_cell m (2 * j + 1) k).

  Section One.
    Context (n nf : nat) (s : tastate (a_pol A)) (Hs : by_sign n nf (ta_matrix s) (ta_pol s)).
    Context (sv : saved) (Hr : sv_rows sv = map (nm_row (ta_matrix s)) (seq 0 (nm_rows (ta_matrix s)))).
    Context (Hw : sv_weights sv = ta_weights s) (Hf : sv_features sv = Z.of_nat nf).
    Lemma included_cell r k : (r < 2 * n)%nat -> (k < nf)%nat -> included sv r k = (0 <=? nm_cell (ta_matrix s) r k).
    Proof.
      destruct Hs as (_ & Er & Ec & _). intros H1 H2. unfold included. rewrite Hr.
      rewrite !nth_lookup, list_lookup_fmap, lookup_seq_lt by lia. cbn [fmap option_fmap option_map default]. unfold nm_row, id.
      rewrite list_lookup_fmap, lookup_seq_lt by lia. done.
    Qed.
    Lemma output_fires x j : (j < n)%nat -> clause_output sv (v_x vw x) j = fires_pruned vw nf s x j.
    Proof.
      intros Hj. unfold clause_output, fires_pruned, fires, clause_true, clause_nonempty, features. rewrite Hf, Nat2Z.id.
      destruct Hs as (_ & _ & _ & Hv). f_equal; [apply forallb_same|apply existsb_same]; intros k Hk; apply elem_of_seq in Hk;
        destruct (Hv j k) as [E1 E2]; [lia..| |lia|lia|]; rewrite E1, E2; unfold agrees; rewrite !included_cell by lia; [|done].
      by destruct (0 <=? nm_cell (ta_matrix s) (2 * j) k), (0 <=? nm_cell (ta_matrix s) (2 * j + 1) k), (v_x vw x k).
    Qed.
    Lemma votes_fires x j : (j < n)%nat -> clause_votes sv (v_x vw x) j = if fires_pruned vw nf s x j then 1 + weight_of (ta_weights s) j else 0.
    Proof. intros Hj. unfold clause_votes, weight_of. by rewrite output_fires, Hw, nth_lookup by done. Qed.
  End One.
End Doc.

Section Says.
  Context {R : rnd} (A : algo R) (vw : aview A).
  (** the model of a state says what the state votes *)
  Definition clf_model (a : clf_args) (L nf : nat) (s : tastate (a_pol A)) : saved :=
    Saved (Z.of_nat L) (ca_clauses a) (Z.of_nat nf) (ca_threshold a) (map (nm_row (ta_matrix s)) (seq 0 (nm_rows (ta_matrix s)))) (ta_weights s).
  Definition reg_model (a : reg_args) (nf : nat) (s : tastate (a_pol A)) : saved :=
    Saved 1 (ra_clauses a) (Z.of_nat nf) (ra_threshold a) (map (nm_row (ta_matrix s)) (seq 0 (nm_rows (ta_matrix s)))) (ta_weights s).
  Lemma clf_says a L nf s x : clf_valid a -> (1 <= L)%nat -> by_sign A vw (L * clf_opl a) nf (ta_matrix s) (ta_pol s) ->
    document_votes (clf_model a L nf s) (v_x vw x) = clf_votes vw a L nf s x /\
    exists w, clf_label vw a L nf s x = Z.of_nat w /\ wins (clf_model a L nf s) (v_x vw x) w.
  Proof.
    intros Hv HL1 Hs. set (m := clf_model a L nf s).
    assert (forall i, votes_for m (v_x vw x) i = label_vote (clf_opl a) (ca_threshold a) (fires_pruned vw nf s x) (ta_weights s) i \/ (L <= i)%nat) as Hvf.
    { intros i. destruct (decide (L <= i)%nat) as [|Hi]; [by right|left]. unfold votes_for, label_vote, pairs. rewrite signed_sum.
      rewrite limit_clamp by (cbn; destruct Hv as [[] [] _]; unfold is_int in *; lia). f_equal. f_equal.
      change (Z.to_nat (sv_clauses m / 2)) with (clf_opl a). apply map_ext_in. intros q Hq. apply in_seq in Hq.
      rewrite (votes_fires A vw (L * clf_opl a) nf s Hs m eq_refl eq_refl eq_refl) by nia. done. }
    assert (document_votes m (v_x vw x) = clf_votes vw a L nf s x) as Hdv.
    { unfold document_votes, clf_votes. change (sv_labels m) with (Z.of_nat L). rewrite Nat2Z.id. apply map_ext_in. intros i Hi. apply in_seq in Hi.
      destruct (Hvf i); [done|lia]. }
    split; [done|]. exists (argmax (clf_votes vw a L nf s x)). split; [done|].
    assert (length (clf_votes vw a L nf s x) = L) as Hlen by (unfold clf_votes; by rewrite map_length, seq_length).
    destruct (argmax_spec (clf_votes vw a L nf s x)) as (v & E & H1 & H2). { intros E. rewrite E in Hlen. cbn in Hlen. lia. }
    assert (forall i, (i < L)%nat -> clf_votes vw a L nf s x !! i = Some (votes_for m (v_x vw x) i)) as Hget.
    { intros i Hi. rewrite <- Hdv. unfold document_votes. change (sv_labels m) with (Z.of_nat L). rewrite Nat2Z.id, list_lookup_fmap, lookup_seq_lt by done. done. }
    pose proof (lookup_lt_Some _ _ _ E) as Hlt. rewrite Hlen in Hlt. rewrite Hget in E by done. injection E as E.
    unfold wins. change (sv_labels m) with (Z.of_nat L). rewrite Nat2Z.id. split; [done|]. intros l' Hl'. split.
    - eapply Z.le_trans; [exact (H1 _ _ (Hget l' Hl'))|]. apply Z.eq_le_incl. symmetry. exact E.
    - intros H. eapply Z.lt_le_trans; [exact (H2 _ _ H (Hget l' Hl'))|]. apply Z.eq_le_incl. symmetry. exact E.
  Qed.
  Lemma reg_says a nf s x : reg_valid a -> by_sign A vw (reg_n a) nf (ta_matrix s) (ta_pol s) ->
    document_response (reg_model a nf s) (v_x vw x) = reg_response vw a nf s x.
  Proof.
    intros Hv Hs. set (m := reg_model a nf s). unfold document_response, reg_response, pairs. rewrite total_sum.
    rewrite limit_clamp by (cbn; destruct Hv as [[] [] _]; unfold is_int in *; lia). f_equal. f_equal.
    change (Z.to_nat (sv_clauses m / 2)) with (reg_n a). apply map_ext_in. intros q Hq. apply in_seq in Hq.
    apply (votes_fires A vw (reg_n a) nf s Hs m eq_refl eq_refl eq_refl). lia.
  Qed.
End Says.

Section Signs.
  Context {R : rnd} (g_ok : eG R -> Prop) (f_ok : eF R -> Prop) (HR : rnd_ok R g_ok f_ok).
  Context (S : sch) (HS : sch_ok S).
  Context (A : algo R) (vw : aview A).
  Lemma clf_signs a p os rs e L nf : trains_well R (ca_states a) A vw -> clf_created a p -> clf_history S A vw p os rs e ->
    clf_dims_of os rs = Some (L, nf) -> by_sign A vw (L * clf_opl a) nf (ta_matrix (e_ta e)) (ta_pol (e_ta e)).
  Proof.
    intros Ht Hc Hh Hd. destruct Ht as [|HN].
    - pose proof (clf_classic_at g_ok f_ok HR S HS a p os rs e Hc Hh) as H. rewrite Hd in H. destruct H as [(_ & _ & [HI _ _ _ _ _ _]) _].
      destruct HI as (Hg & _ & Er & Ec & _). cbn in *. by split; [apply Hg|].
    - pose proof (clf_bitwise_at g_ok f_ok HR S HS a p os rs e Hc HN Hh) as H. rewrite Hd in H. destruct H as [(_ & _ & [HI _ _ _ _ _ _]) _].
      cbn in HI. destruct HI as [((Hg & Hb) & _ & Er & Ec & _) Hcell]. cbn in *. split; [apply Hg|]. split; [done|]. split; [done|].
      intros j k Hj Hk. split; [destruct (Hcell (2 * j)%nat k ltac:(lia) Hk) as [_ H]|destruct (Hcell (2 * j + 1)%nat k ltac:(lia) Hk) as [_ H]]; exact H.
  Qed.
  Lemma reg_signs a p os rs e nf : trains_well R (ra_states a) A vw -> reg_created a p -> reg_history S A vw p os rs e ->
    reg_dims_of os rs = Some nf -> by_sign A vw (reg_n a) nf (ta_matrix (e_ta e)) (ta_pol (e_ta e)).
  Proof.
    intros Ht Hc Hh Hd. destruct Ht as [|HN].
    - pose proof (reg_classic_at g_ok f_ok HR S HS a p os rs e Hc Hh) as H. rewrite Hd in H. destruct H as [(_ & _ & [HI _ _ _ _ _]) _].
      destruct HI as (Hg & _ & Er & Ec & _). cbn in *. by split; [apply Hg|].
    - pose proof (reg_bitwise_at g_ok f_ok HR S HS a p os rs e Hc HN Hh) as H. rewrite Hd in H. destruct H as [(_ & _ & [HI _ _ _ _ _]) _].
      cbn in HI. destruct HI as [((Hg & Hb) & _ & Er & Ec & _) Hcell]. cbn in *. split; [apply Hg|]. split; [done|]. split; [done|].
      intros j k Hj Hk. split; [destruct (Hcell (2 * j)%nat k ltac:(lia) Hk) as [_ H]|destruct (Hcell (2 * j + 1)%nat k ltac:(lia) Hk) as [_ H]]; exact H.
  Qed.
  Lemma clf_parts a p os rs e L nf : tsetlini_algo R A vw -> clf_created a p -> clf_history S A vw p os rs e ->
    clf_dims_of os rs = Some (L, nf) -> clf_valid a /\ clf_dims a L nf (e_params e) /\
    forall x, v_phys vw x -> v_ok vw nf x -> exists e1 e2, clf_decision1 S A e x = Ret (Right (clf_votes vw a L nf (e_ta e) x), e1) /\
      clf_predict1 S A e x = Ret (Right (clf_label vw a L nf (e_ta e) x), e2).
  Proof.
    intros HA Hc Hh Hd. destruct (clf_hist_laws g_ok f_ok HR A vw HA a (cc_valid _ _ Hc)) as (I & Ea & Eb & E2 & Lw).
    pose proof (clf_history_at g_ok f_ok HR S HS A vw _ _ I Ea Eb E2 Lw a p os rs e Hc eq_refl eq_refl Hh) as Hat.
    rewrite Hd in Hat. destruct Hat as [(Hv & Hdims & _) _]. split; [done|]. split; [done|]. intros x Hph Hok.
    destruct (clf_decision1_answer g_ok f_ok HR S HS A vw HA a p os rs e Hc Hh x Hph) as (r1 & e1 & D1 & An1).
    destruct (clf_predict1_answer g_ok f_ok HR S HS A vw HA a p os rs e Hc Hh x Hph) as (r2 & e2 & D2 & An2).
    rewrite Hd in An1, An2. cbn [EstStep.clf_answer] in An1, An2.
    destruct An1 as [[_ [= ->]]|[Hn _]]; [|by destruct Hn]. destruct An2 as [[_ [= ->]]|[Hn _]]; [|by destruct Hn]. by exists e1, e2.
  Qed.
  Lemma reg_parts a p os rs e nf : tsetlini_algo R A vw -> reg_created a p -> reg_history S A vw p os rs e ->
    reg_dims_of os rs = Some nf -> reg_valid a /\ reg_dims a nf (e_params e) /\
    forall x, v_phys vw x -> v_ok vw nf x -> exists e1, reg_predict1 S A e x = Ret (Right (reg_response vw a nf (e_ta e) x), e1).
  Proof.
    intros HA Hc Hh Hd. destruct (reg_hist_laws g_ok f_ok HR A vw HA a (rc_valid _ _ Hc)) as (I & Ea & Eb & E2 & Lw).
    pose proof (reg_history_at g_ok f_ok HR S HS A vw _ _ I Ea Eb E2 Lw a p os rs e Hc eq_refl eq_refl Hh) as Hat.
    rewrite Hd in Hat. destruct Hat as [(Hv & Hdims & _) _]. split; [done|]. split; [done|]. intros x Hph Hok.
    destruct (reg_predict1_answer g_ok f_ok HR S HS A vw HA a p os rs e Hc Hh x Hph) as (r1 & e1 & D1 & An1).
    rewrite Hd in An1. cbn [EstStep.reg_answer] in An1. destruct An1 as [[_ [= ->]]|[Hn _]]; [|by destruct Hn]. by exists e1.
  Qed.
End Signs.

Section Text.
  Context (sh : irng -> nat -> list nat * irng) (l : bool) (fuel : nat) (b1 b2 : Z -> float32) (Hsh : shuffle_ok sh).
  Let R := mt_rnd sh l fuel b1 b2.
  Context (A : algo R) (vw : aview A) (C : pol_codec (a_pol A)) (HC : tsetlini_codec R A vw C).
  Context (S : sch) (HS : sch_ok S).
  Notation est := (est (a_pol A) (eS S) (eG R) (eF R)).
  Let HR := mt_rnd_ok sh l fuel b1 b2 Hsh.
  Let HA := codec_algo R A vw C HC.

  Lemma clf_document a p os rs (e : est) L nf : trains_well R (ca_states a) A vw -> clf_created a p -> clf_made_text p ->
    clf_history S A vw p os rs e -> clf_dims_of os rs = Some (L, nf) ->
    exists t, clf_to_json_string C S e = Ret t /\ forall j, json_text t j -> exists m, read_classifier j = Some m /\
      forall x, v_phys vw x -> v_ok vw nf x -> exists e1 e2 w,
        clf_decision1 S A e x = Ret (Right (document_votes m (v_x vw x)), e1) /\
        clf_predict1 S A e x = Ret (Right (Z.of_nat w), e2) /\ wins m (v_x vw x) w.
  Proof.
    intros Ht Hc Hm Hh Hd.
    destruct (clf_text sh l fuel b1 b2 Hsh A vw C HC S p os rs e HS Hm Hh) as (doc & t & Ej & Et & Htx).
    pose proof (clf_signs _ _ HR S HS A vw a p os rs e L nf Ht Hc Hh Hd) as Hs.
    destruct (clf_parts _ _ HR S HS A vw a p os rs e L nf HA Hc Hh Hd) as (Hv & [Hhas HL Hnf HL1 _] & Hans).
    destruct (saved_parts A vw C HC "classifier" S e (proj1 Hs)) as (doc' & Ej' & Hrows & Hws & Hp).
    pose proof (eq_trans (eq_sym Ej) Ej') as Eq. injection Eq as <-. clear Ej'.
    exists t. split; [exact Et|]. intros j Hj.
    assert (j = reparse doc) as -> by exact (stands_unique t _ _ (text_stands _ _ Hj) (text_stands _ _ Htx)).
    eexists. split.
    { unfold read_classifier. rewrite (Hp _ _ (at_int_some _ _ _ HL)). cbn [mbind option_bind].
      rewrite (Hp _ _ (at_int_some _ _ _ (ch_clauses _ _ Hhas))). cbn [mbind option_bind].
      rewrite (Hp _ _ (at_int_some _ _ _ Hnf)). cbn [mbind option_bind].
      rewrite (Hp _ _ (at_int_some _ _ _ (ch_threshold _ _ Hhas))). cbn [mbind option_bind].
      rewrite Hrows, Hws. reflexivity. }
    intros x Hph Hok. destruct (Hans x Hph Hok) as (e1 & e2 & D1 & D2).
    destruct (clf_says A vw a L nf (e_ta e) x Hv HL1 Hs) as (Hdv & w & Ew & Hw).
    exists e1, e2, w. split; [exact (eq_trans D1 (f_equal (fun v => Ret (Right v, e1)) (eq_sym Hdv)))|].
    split; [exact (eq_trans D2 (f_equal (fun v => Ret (Right v, e2)) Ew))|]. exact Hw.
  Qed.

  Lemma reg_document a p os rs (e : est) nf : trains_well R (ra_states a) A vw -> reg_created a p -> reg_made_text p ->
    reg_history S A vw p os rs e -> reg_dims_of os rs = Some nf ->
    exists t, reg_to_json_string C S e = Ret t /\ forall j, json_text t j -> exists m, read_regressor j = Some m /\
      forall x, v_phys vw x -> v_ok vw nf x -> exists e1, reg_predict1 S A e x = Ret (Right (document_response m (v_x vw x)), e1).
  Proof.
    intros Ht Hc Hm Hh Hd.
    destruct (reg_text sh l fuel b1 b2 Hsh A vw C HC S p os rs e HS Hm Hh) as (doc & t & Ej & Et & Htx).
    pose proof (reg_signs _ _ HR S HS A vw a p os rs e nf Ht Hc Hh Hd) as Hs.
    destruct (reg_parts _ _ HR S HS A vw a p os rs e nf HA Hc Hh Hd) as (Hv & [Hhas Hnf] & Hans).
    destruct (saved_parts A vw C HC "regressor" S e (proj1 Hs)) as (doc' & Ej' & Hrows & Hws & Hp).
    pose proof (eq_trans (eq_sym Ej) Ej') as Eq. injection Eq as <-. clear Ej'.
    exists t. split; [exact Et|]. intros j Hj.
    assert (j = reparse doc) as -> by exact (stands_unique t _ _ (text_stands _ _ Hj) (text_stands _ _ Htx)).
    eexists. split.
    { unfold read_regressor. rewrite (Hp _ _ (at_int_some _ _ _ (rh_clauses _ _ Hhas))). cbn [mbind option_bind].
      rewrite (Hp _ _ (at_int_some _ _ _ Hnf)). cbn [mbind option_bind].
      rewrite (Hp _ _ (at_int_some _ _ _ (rh_threshold _ _ Hhas))). cbn [mbind option_bind].
      rewrite Hrows, Hws. reflexivity. }
    intros x Hph Hok. destruct (Hans x Hph Hok) as (e1 & D1). exists e1.
    exact (eq_trans D1 (f_equal (fun v => Ret (Right v, e1)) (eq_sym (reg_says A vw a nf (e_ta e) x Hv Hs)))).
  Qed.
End Text.
Lemma documents_readable sh l fuel b1 b2 : shuffle_ok sh -> forall (A : algo (mt_rnd sh l fuel b1 b2)) vw C, tsetlini_codec _ A vw C ->
  forall S, sch_ok S ->
  (forall p os rs e t, clf_made_text p -> clf_history S A vw p os rs e -> clf_to_json_string C S e = Ret t -> exists j, json_text t j) /\
  (forall p os rs e t, reg_made_text p -> reg_history S A vw p os rs e -> reg_to_json_string C S e = Ret t -> exists j, json_text t j).
Proof.
  intros Hsh A vw C HC S HS. split; intros p os rs e t Hm Hh Et.
  - destruct (clf_text sh l fuel b1 b2 Hsh A vw C HC S p os rs e HS Hm Hh) as (j & t' & _ & Et' & Ht).
    pose proof (eq_trans (eq_sym Et) Et') as Eq. injection Eq as ->. by exists (reparse j).
  - destruct (reg_text sh l fuel b1 b2 Hsh A vw C HC S p os rs e HS Hm Hh) as (j & t' & _ & Et' & Ht).
    pose proof (eq_trans (eq_sym Et) Et') as Eq. injection Eq as ->. by exists (reparse j).
Qed.
