(** * Training with valid data succeeds. *)
From Verif Require Import HistFacts TotalFacts.
From stdpp Require Import list.
Local Open Scope Z_scope.

Section Total.
  Context {R : rnd} (g_ok : eG R -> Prop) (f_ok : eF R -> Prop) (HR : rnd_ok R g_ok f_ok).
  Context (S : sch) (HS : sch_ok S).
  Context (A : algo R) (vw : aview A) (HA : tsetlini_algo R A vw).
  Notation est := (est (a_pol A) (eS S) (eG R) (eF R)).

  (** data a training call accepts for [nf] features *)
  Definition good_samples (nf : nat) (X : list (a_smp A)) (y : list Z) : Prop :=
    X <> [] /\ length y = length X /\ Forall (v_phys vw) X /\ Forall (v_ok vw nf) X.
  Lemma good_data nf X y : good_samples nf X y -> data_ok A vw nf X y /\ features_of X = nf.
  Proof. intros (H1 & H2 & _ & H4). assert (data_ok A vw nf X y) as H by done. split; [done|]. by eapply (feat_ok g_ok f_ok HR A vw HA). Qed.

  Lemma clf_after a p os rs (e : est) L nf : clf_created a p -> clf_history S A vw p os rs e -> clf_dims_of os rs = Some (L, nf) ->
    forall x, v_phys vw x -> v_ok vw nf x -> exists l e2, clf_predict1 S A e x = Ret (Right l, e2) /\ 0 <= l < Z.of_nat L.
  Proof.
    intros Hc Hh Hd x Hx Hok. destruct (clf_predict1_answer g_ok f_ok HR S HS A vw HA a p os rs e Hc Hh x Hx) as (r & e2 & E & An).
    rewrite Hd in An. cbn [clf_answer] in An. destruct An as [[_ An]|[Hn _]]; [|done]. exists (clf_label vw a L nf (e_ta e) x), e2.
    injection An as ->. split; [done|].
    destruct (predicted_label g_ok f_ok HR S HS A vw HA a p os rs e Hc Hh x _ e2 Hx E) as (v & e3 & L' & nf' & _ & Hd' & _ & Hb & _).
    rewrite Hd in Hd'. by injection Hd' as <- <-.
  Qed.
  Lemma reg_after a p os rs (e : est) nf : reg_created a p -> reg_history S A vw p os rs e -> reg_dims_of os rs = Some nf ->
    forall x, v_phys vw x -> v_ok vw nf x -> exists v e2, reg_predict1 S A e x = Ret (Right v, e2) /\ 0 <= v <= ra_threshold a.
  Proof.
    intros Hc Hh Hd x Hx Hok. destruct (reg_predict1_answer g_ok f_ok HR S HS A vw HA a p os rs e Hc Hh x Hx) as (r & e2 & E & An).
    rewrite Hd in An. cbn [reg_answer] in An. destruct An as [[_ An]|[Hn _]]; [|done]. eexists _, e2. injection An as ->. split; [done|].
    by destruct (regressor_response g_ok f_ok HR S HS A vw HA a p os rs e Hc Hh x _ e2 Hx E) as (nf' & _ & _ & Hb).
  Qed.
  (** widths the coin tosser is proved to handle: at most 2^24 features, and every residue occurs among enough draws *)
  Definition tossable (n : nat) : Prop := Z.of_nat n <= 16777216 /\ fair R g_ok n.
  Definition old_tossable (d : option nat) : Prop := match d with Some n => tossable n | None => True end.

  Lemma clf_fit_succeeds a p os rs (e : est) nf X y ml n : clf_created a p -> clf_typed a -> clf_history S A vw p os rs e ->
    old_tossable (snd <$> clf_dims_of os rs) -> tossable nf ->
    good_samples nf X y -> Forall (fun v => 0 <= v < int_max) y -> 2 <= n_labels y ml -> ca_threshold a < 1073741824 ->
    sizes_fit (n_labels y ml * ca_clauses a) (Z.of_nat nf) ->
    exists e', clf_fit S A e X y ml n = Ret (S_OK, e') /\
      forall x, v_phys vw x -> v_ok vw nf x -> exists l e2, clf_predict1 S A e' x = Ret (Right l, e2) /\ 0 <= l < n_labels y ml.
  Proof.
    intros Hc Ht Hh Hold Hnew Hg Hy HL HT Hs. pose proof (good_data _ _ _ Hg) as [Hd Efe]. destruct Hg as (Hne & Hl & Hp & Hok).
    assert (clf_op_phys A vw (CFit A X y ml n)) as Hph by exact Hp.
    assert (Forall (fun v => 0 <= v) y) as Hy0 by (eapply Forall_impl; [exact Hy|]; cbn; lia).
    destruct (clf_total g_ok f_ok HR S HS A vw HA a p os rs e (CFit A X y ml n) Hc Ht Hh Hph) as (r & e' & E & An).
    { split; [eapply Forall_impl; [exact Hy|]; unfold int_min; cbn; lia|]. intros _. by rewrite Efe. }
    { split; [|by rewrite Efe]. by destruct (clf_dims_of os rs) as [[]|]. }
    cbn [clf_answer] in An. destruct An as [[_ ->]|[Hn _]]; [|by destruct Hn; split; [exists nf|]].
    pose proof (clf_history_snoc S A vw p os rs e _ _ _ Hh Hph E) as Hh'.
    exists e'. split.
    { cbn [clf_step] in E. apply obind_ret_inv in E as ([st e1] & E & [= -> ->]). exact E. }
    assert (clf_dims_of (os ++ [CFit A X y ml n]) (rs ++ [CRStatus S_OK]) = Some (Z.to_nat (n_labels y ml), nf)) as Hd'.
    { rewrite clf_dims_snoc by (by eapply clf_run_len, Hh). cbn. by rewrite Efe. }
    intros x Hx Hxo. destruct (clf_after a p _ _ e' _ _ Hc Hh' Hd' x Hx Hxo) as (l & e2 & E2 & Hb). exists l, e2. split; [done|]. lia.
  Qed.
  Lemma clf_more_succeeds a p os rs (e : est) L nf X y ml n : clf_created a p -> clf_typed a -> clf_history S A vw p os rs e ->
    clf_dims_of os rs = Some (L, nf) -> tossable nf ->
    good_samples nf X y -> Forall (fun v => 0 <= v < Z.of_nat L) y -> (2 <= L)%nat -> ca_threshold a < 1073741824 ->
    exists e', clf_partial_fit S A e X y ml n = Ret (S_OK, e') /\
      forall x, v_phys vw x -> v_ok vw nf x -> exists l e2, clf_predict1 S A e' x = Ret (Right l, e2) /\ 0 <= l < Z.of_nat L.
  Proof.
    intros Hc Ht Hh Hdim Hold Hg Hy HL HT. pose proof (good_data _ _ _ Hg) as [Hd Efe]. destruct Hg as (Hne & Hl & Hp & Hok).
    assert (clf_op_phys A vw (CPartialFit A X y ml n)) as Hph by exact Hp.
    destruct (clf_total g_ok f_ok HR S HS A vw HA a p os rs e (CPartialFit A X y ml n) Hc Ht Hh Hph) as (r & e' & E & An).
    { rewrite Hdim. done. }
    { rewrite Hdim. split; [done|by rewrite Efe]. }
    rewrite Hdim in An. cbn [clf_answer] in An. destruct An as [[_ ->]|[Hn _]]; [|by destruct Hn].
    pose proof (clf_history_snoc S A vw p os rs e _ _ _ Hh Hph E) as Hh'.
    exists e'. split.
    { cbn [clf_step] in E. apply obind_ret_inv in E as ([st e1] & E & [= -> ->]). exact E. }
    assert (clf_dims_of (os ++ [CPartialFit A X y ml n]) (rs ++ [CRStatus S_OK]) = Some (L, nf)) as Hd'.
    { rewrite clf_dims_snoc by (by eapply clf_run_len, Hh). cbn. by rewrite Hdim. }
    exact (clf_after a p _ _ e' _ _ Hc Hh' Hd').
  Qed.
  Lemma reg_fit_succeeds a p os rs (e : est) nf X y n : reg_created a p -> reg_typed a -> reg_history S A vw p os rs e ->
    old_tossable (reg_dims_of os rs) -> tossable nf -> loss_bounds a ->
    good_samples nf X y -> Forall (fun v => 0 <= v <= ra_threshold a) y -> sizes_fit (ra_clauses a) (Z.of_nat nf) ->
    exists e', reg_fit S A e X y n = Ret (S_OK, e') /\
      forall x, v_phys vw x -> v_ok vw nf x -> exists v e2, reg_predict1 S A e' x = Ret (Right v, e2) /\ 0 <= v <= ra_threshold a.
  Proof.
    intros Hc Ht Hh Hold Hnew Hlb Hg Hy Hs. pose proof (good_data _ _ _ Hg) as [Hd Efe]. destruct Hg as (Hne & Hl & Hp & Hok).
    assert (reg_op_phys A vw (RFit A X y n)) as Hph by exact Hp.
    destruct (reg_total g_ok f_ok HR S HS A vw HA a p os rs e (RFit A X y n) Hc Ht Hh Hph) as (r & e' & E & An).
    { split; [done|]. intros _. by rewrite Efe. }
    { split; [|by rewrite Efe]. by destruct (reg_dims_of os rs). }
    cbn [reg_answer] in An. destruct An as [[_ ->]|[Hn _]]; [|by destruct Hn; split; [exists nf|]].
    pose proof (reg_history_snoc S A vw p os rs e _ _ _ Hh Hph E) as Hh'.
    exists e'. split.
    { cbn [reg_step] in E. apply obind_ret_inv in E as ([st e1] & E & [= -> ->]). exact E. }
    assert (reg_dims_of (os ++ [RFit A X y n]) (rs ++ [RRStatus S_OK]) = Some nf) as Hd'.
    { rewrite reg_dims_snoc by (by eapply reg_run_len, Hh). cbn. by rewrite Efe. }
    exact (reg_after a p _ _ e' _ Hc Hh' Hd').
  Qed.
  Lemma reg_more_succeeds a p os rs (e : est) nf X y n : reg_created a p -> reg_typed a -> reg_history S A vw p os rs e ->
    reg_dims_of os rs = Some nf -> tossable nf -> loss_bounds a ->
    good_samples nf X y -> Forall (fun v => 0 <= v <= ra_threshold a) y ->
    exists e', reg_partial_fit S A e X y n = Ret (S_OK, e') /\
      forall x, v_phys vw x -> v_ok vw nf x -> exists v e2, reg_predict1 S A e' x = Ret (Right v, e2) /\ 0 <= v <= ra_threshold a.
  Proof.
    intros Hc Ht Hh Hdim Hold Hlb Hg Hy. pose proof (good_data _ _ _ Hg) as [Hd Efe]. destruct Hg as (Hne & Hl & Hp & Hok).
    assert (reg_op_phys A vw (RPartialFit A X y n)) as Hph by exact Hp.
    destruct (reg_total g_ok f_ok HR S HS A vw HA a p os rs e (RPartialFit A X y n) Hc Ht Hh Hph) as (r & e' & E & An).
    { rewrite Hdim. done. }
    { rewrite Hdim. split; [done|by rewrite Efe]. }
    rewrite Hdim in An. cbn [reg_answer] in An. destruct An as [[_ ->]|[Hn _]]; [|by destruct Hn].
    pose proof (reg_history_snoc S A vw p os rs e _ _ _ Hh Hph E) as Hh'.
    exists e'. split.
    { cbn [reg_step] in E. apply obind_ret_inv in E as ([st e1] & E & [= -> ->]). exact E. }
    assert (reg_dims_of (os ++ [RPartialFit A X y n]) (rs ++ [RRStatus S_OK]) = Some nf) as Hd'.
    { rewrite reg_dims_snoc by (by eapply reg_run_len, Hh). cbn. by rewrite Hdim. }
    exact (reg_after a p _ _ e' _ Hc Hh' Hd').
  Qed.

  (** no call, with any arguments within the stated bounds, is undefined or throws *)
  Definition fine {T} (o : outcome T) : Prop := match o with UB _ | Throw _ => False | _ => True end.
  Lemma clf_fine a p os rs (e : est) o : clf_created a p -> clf_typed a -> clf_history S A vw p os rs e -> clf_op_phys A vw o ->
    clf_bounds A vw a (clf_dims_of os rs) o -> clf_wide A (fun n => Z.of_nat n <= int_max) (clf_dims_of os rs) o -> fine (clf_step S A e o).
  Proof.
    intros Hc Ht Hh Ho Hb Hw. pose proof (clf_safe g_ok f_ok HR S HS A vw HA a p os rs e o Hc Ht Hh Ho Hb Hw) as W.
    by destruct (clf_step S A e o).
  Qed.
  Lemma reg_fine a p os rs (e : est) o : reg_created a p -> reg_typed a -> reg_history S A vw p os rs e -> reg_op_phys A vw o ->
    reg_bounds A vw a (reg_dims_of os rs) o -> reg_wide A (fun n => Z.of_nat n <= int_max) (reg_dims_of os rs) o -> fine (reg_step S A e o).
  Proof.
    intros Hc Ht Hh Ho Hb Hw. pose proof (reg_safe g_ok f_ok HR S HS A vw HA a p os rs e o Hc Ht Hh Ho Hb Hw) as W.
    by destruct (reg_step S A e o).
  Qed.
End Total.
