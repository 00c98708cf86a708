(** * Prediction: what the public calls return on a fitted estimator, for any schedule, tile size and scratch contents. *)
From Verif Require Export VoteFacts.
From stdpp Require Import list.
Local Open Scope Z_scope.

(** ** Configuration arithmetic *)
Definition width_of (counting : string) (N : Z) : Z := counting_width (normalize_counting_type counting N).
Lemma width_cases c N : width_of c N = 8 \/ width_of c N = 16 \/ width_of c N = 32.
Proof.
  unfold width_of, counting_width. destruct (_ =? "int8")%string; [auto|]. destruct (_ =? "int16")%string; auto.
Qed.
Lemma width_fits c N : counting_known c -> 1 <= N <= int_max -> 1 <= N <= 2 ^ (width_of c N - 1).
Proof.
  intros Hc HN. split; [lia|].
  assert (width_of c N = 8 /\ N <= 127 \/ width_of c N = 16 /\ N <= 32767 \/ width_of c N = 32) as [[-> H]|[[-> H]| ->]].
  { unfold width_of, normalize_counting_type. destruct Hc as [->|[->|[->| ->]]]; cbn;
    destruct (Z.leb_spec N 127), (Z.leb_spec N 32767); cbn; tauto. }
  - change (2 ^ (8 - 1)) with 128. lia.
  - change (2 ^ (16 - 1)) with 32768. lia.
  - change (2 ^ (32 - 1)) with 2147483648. unfold int_max in HN. lia.
Qed.
Lemma tile_of_pos t : tile_known t -> (0 < tile_of t)%nat.
Proof. intros [->|[->|[->| ->]]]; vm_compute; lia. Qed.

(** clause outputs per label / of a regressor *)
Definition clf_opl (a : clf_args) : nat := Z.to_nat (ca_clauses a / 2).
Definition reg_n (a : reg_args) : nat := Z.to_nat (ra_clauses a / 2).
Lemma clf_opl_facts a : clf_valid a ->
  ca_clauses a = 2 * Z.of_nat (clf_opl a) /\ Z.quot (ca_clauses a) 2 = Z.of_nat (clf_opl a) /\
  Nat.even (clf_opl a) = true /\ (2 <= clf_opl a)%nat.
Proof.
  intros [_ Hacc _]. destruct Hacc. destruct cv_clauses as [H1 H2]. unfold clf_opl.
  assert (exists q, ca_clauses a = 4 * q) as [q Eq] by (exists (ca_clauses a / 4); apply Z_div_exact_full_2; lia).
  rewrite Z.quot_div_nonneg by lia. assert (ca_clauses a / 2 = 2 * q) as E.
  { rewrite Eq. replace (4 * q) with (2 * q * 2) by lia. apply Z.div_mul. lia. }
  rewrite E. split; [lia|]. split; [lia|]. split; [|lia]. rewrite Nat.even_spec. exists (Z.to_nat q). lia.
Qed.
Lemma reg_n_facts a : reg_valid a ->
  ra_clauses a = 2 * Z.of_nat (reg_n a) /\ Z.quot (ra_clauses a) 2 = Z.of_nat (reg_n a) /\ (1 <= reg_n a)%nat.
Proof.
  intros [_ Hacc _]. destruct Hacc. destruct rv_clauses as [H1 H2]. unfold reg_n.
  assert (exists q, ra_clauses a = 2 * q) as [q Eq] by (exists (ra_clauses a / 2); apply Z_div_exact_full_2; lia).
  rewrite Z.quot_div_nonneg by lia. assert (ra_clauses a / 2 = q) as E.
  { rewrite Eq, Z.mul_comm. apply Z.div_mul. lia. }
  rewrite E. lia.
Qed.

(** ** Specification of inference, in terms of the included literals *)
Section Spec.
  Context {R : rnd} {A : algo R} (vw : aview A).
  Notation ta := (tastate (a_pol A)).
  (** clause [j] evaluates to true: during training / during prediction *)
  Definition fires (nf : nat) (s : ta) (x : a_smp A) (j : nat) : bool :=
    clause_true nf (v_inc vw (ta_matrix s) (ta_pol s) j) (v_incn vw (ta_matrix s) (ta_pol s) j) (v_x vw x).
  Definition fires_pruned (nf : nat) (s : ta) (x : a_smp A) (j : nat) : bool :=
    fires nf s x j && clause_nonempty nf (v_inc vw (ta_matrix s) (ta_pol s) j) (v_incn vw (ta_matrix s) (ta_pol s) j).
  (** votes of one label, of all labels; response of a regressor *)
  Definition label_vote (opl : nat) (T : Z) (f : nat -> bool) (ws : list Z) (l : nat) : Z :=
    clamp (- T) T (signed_votes opl (fun j => f (l * opl + j)%nat) (fun j => weight_of ws (l * opl + j))).
  Definition clf_votes (a : clf_args) (L nf : nat) (s : ta) (x : a_smp A) : list Z :=
    map (label_vote (clf_opl a) (ca_threshold a) (fires_pruned nf s x) (ta_weights s)) (seq 0 L).
  Definition clf_label (a : clf_args) (L nf : nat) (s : ta) (x : a_smp A) : Z := Z.of_nat (argmax (clf_votes a L nf s x)).
  Definition reg_response (a : reg_args) (nf : nat) (s : ta) (x : a_smp A) : Z :=
    clamp 0 (ra_threshold a) (total_votes (reg_n a) (fires_pruned nf s x) (weight_of (ta_weights s))).
End Spec.

Section Predict.
  Context {R : rnd} (g_ok : eG R -> Prop) (f_ok : eF R -> Prop).
  Context (S : sch) (HS : sch_ok S).
  Context (A : algo R) (vw : aview A) (U V : Prop).
  Context (w N : Z) (I : nat -> nat -> nmatrix -> a_pol A -> Prop).
  Context (E1n : nat -> coin_tosser -> a_smp A -> nat -> amp A -> amp A -> Prop).
  Context (E1p : bool -> nat -> coin_tosser -> a_smp A -> nat -> amp A -> amp A -> Prop).
  Context (E2 : nat -> a_smp A -> nat -> amp A -> amp A -> Prop).
  Context (Lw : laws A g_ok vw U V w N I E1n E1p E2).
  Notation G := (eG R).
  Notation F := (eF R).
  Notation smp := (a_smp A).
  Notation ta := (tastate (a_pol A)).
  Notation cache := (cache (eS S)).
  Notation est := (est (a_pol A) (eS S) G F).

  (** scratch space has the right sizes *)
  Definition lens (n L : nat) (c : cache) : Prop :=
    length (ca_fb c) = n /\ length (ca_out c) = n /\ length (ca_sum c) = L.
  (** what prediction leaves alone in the scratch space *)
  Definition keep (c c' : cache) : Prop :=
    ca_fb c' = ca_fb c /\ ca_ct c' = ca_ct c /\ length (ca_out c') = length (ca_out c) /\ length (ca_sum c') = length (ca_sum c).
  Lemma keep_refl c : keep c c. Proof. done. Qed.
  Lemma keep_trans c1 c2 c3 : keep c1 c2 -> keep c2 c3 -> keep c1 c3.
  Proof. intros (?&?&?&?) (?&?&?&?). split_and!; congruence. Qed.
  Lemma keep_lens n L c c' : keep c c' -> lens n L c -> lens n L c'.
  Proof. intros (E1 & _ & E3 & E4) (?&?&?). unfold lens. rewrite E1, E3, E4. done. Qed.

  (** ** Clause outputs *)
  Lemma sched_in ss nj b e i : i ∈ (sched S ss nj b e).1 <-> (b <= i < e)%nat.
  Proof. rewrite (HS ss nj b e), elem_of_seq. lia. Qed.

  Lemma calc_output_spec n nf x c s b e n_jobs tile :
    I n nf (ta_matrix s) (ta_pol s) -> v_ok vw nf x -> tile_known tile -> (e <= n)%nat -> (n <= length (ca_out c))%nat ->
    exists c', calc_clause_output S A x c (Z.of_nat b) (Z.of_nat e) s n_jobs tile = Ret c' /\
      ca_fb c' = ca_fb c /\ ca_sum c' = ca_sum c /\ ca_ct c' = ca_ct c /\ length (ca_out c') = length (ca_out c) /\
      forall i, ca_out c' !! i = if decide (b <= i < e)%nat then Some (b2z (fires vw nf s x i)) else ca_out c !! i.
  Proof.
    intros HI Hx Ht He Hn. unfold calc_clause_output. rewrite (proj2 (Z.ltb_ge (Z.of_nat b) 0)) by lia. cbn [andb].
    rewrite !Nat2Z.id. pose proof (sched_in (ca_sched c) n_jobs b e) as Hin.
    destruct (sched S (ca_sched c) n_jobs b e) as [order ss]. cbn [fst] in Hin.
    destruct (clause_loop_spec (a_clause A (tile_of tile) x s) (fun i => b2z (fires vw nf s x i)) (ca_out c) order)
      as (out & E & El & Hi).
    - intros j Hj%Hin. destruct s as [m ws p]. apply (l_clause _ _ _ _ _ _ _ _ _ _ _ Lw n); auto using tile_of_pos. lia.
    - intros j Hj%Hin. lia.
    - rewrite E. cbn [obind]. eexists. split; [done|]. cbn. split; [done|]. split; [done|]. split; [done|]. split; [done|].
      intros i. rewrite Hi. destruct (decide (i ∈ order)) as [H|H]; rewrite Hin in H;
        [by rewrite decide_True|by rewrite decide_False].
  Qed.

  Lemma calc_pruned_spec n nf x c s n_jobs tile :
    I n nf (ta_matrix s) (ta_pol s) -> v_ok vw nf x -> tile_known tile -> length (ca_out c) = n ->
    exists c', calc_clause_output_pruned S A x c (Z.of_nat n) s n_jobs tile = Ret c' /\ keep c c' /\ ca_sum c' = ca_sum c /\
      forall i, (i < n)%nat -> ca_out c' !! i = Some (b2z (fires_pruned vw nf s x i)).
  Proof.
    intros HI Hx Ht Hn. unfold calc_clause_output_pruned.
    rewrite !Nat2Z.id. pose proof (sched_in (ca_sched c) n_jobs 0 n) as Hin.
    destruct (sched S (ca_sched c) n_jobs 0 n) as [order ss]. cbn [fst] in Hin.
    destruct (clause_loop_spec (a_clause_pruned A (tile_of tile) x s) (fun i => b2z (fires_pruned vw nf s x i)) (ca_out c) order)
      as (out & E & El & Hi).
    - intros j Hj%Hin. destruct s as [m ws p]. apply (l_pruned _ _ _ _ _ _ _ _ _ _ _ Lw n); auto using tile_of_pos. lia.
    - intros j Hj%Hin. lia.
    - rewrite E. cbn [obind]. eexists. split; [done|]. cbn. split; [done|]. split; [done|].
      intros i Hlt. rewrite Hi. rewrite decide_True; [done|]. apply Hin. lia.
  Qed.

  (** scratch sizes survive even inputs for which nothing else is known *)
  Lemma calc_pruned_keep x c n s nj tile c' : calc_clause_output_pruned S A x c n s nj tile = Ret c' -> keep c c' /\ ca_sum c' = ca_sum c.
  Proof.
    unfold calc_clause_output_pruned. destruct (sched _ _ _ _ _) as [order ss]. intros H.
    apply obind_ret_inv in H as (out & E & [= <-]). apply clause_loop_length in E. done.
  Qed.
  Lemma label_votes_keep (e : est) x c L opl T n nj tile c' : label_votes S A e x c L opl T n nj tile = Ret c' -> keep c c'.
  Proof.
    unfold label_votes. intros H. apply obind_ret_inv in H as (c1 & Eq1 & H). apply obind_ret_inv in H as (ls & Eq2 & [= <-]).
    apply calc_pruned_keep in Eq1 as [(K1 & K2 & K3 & K4) Es]. apply sum_all_length in Eq2. unfold keep; cbn. split_and!; try done. congruence.
  Qed.

  (** ** Input checks of prediction *)
  Lemma oall_total X : Forall (v_phys vw) X ->
    exists b, oall (a_pad A) X = Ret b /\ (b = true <-> Forall (fun x => a_pad A x = Ret true) X).
  Proof.
    induction X as [|x X IH]; intros HX; cbn [oall].
    - exists true. split; [done|]. split; [constructor|done].
    - inversion HX as [|? ? Hx HX']; subst. destruct (l_pad _ _ _ _ _ _ _ _ _ _ _ Lw x Hx) as [b E]. rewrite E. cbn [obind].
      destruct b.
      + destruct (IH HX') as (b' & -> & Hb'). exists b'. split; [done|]. rewrite Forall_cons_iff. tauto.
      + exists false. split; [done|]. split; [done|]. rewrite Forall_cons_iff. intros [? _]. congruence.
  Qed.
  Lemma v_ok_iff nf x : v_phys vw x -> v_ok vw nf x <-> a_size A x = nf /\ a_01 A x = true /\ a_pad A x = Ret true.
  Proof.
    intros Hx. pose proof (l_accept _ _ _ _ _ _ _ _ _ _ _ Lw x Hx) as Ha. split.
    - intros Hok. pose proof (l_size _ _ _ _ _ _ _ _ _ _ _ Lw nf x Hok) as Es. split; [done|]. apply Ha. by rewrite Es.
    - intros (<- & H). by apply Ha.
  Qed.

  Lemma check_single_spec (e : est) (nf : nat) x : v_phys vw x -> is_fitted A (e_ta e) = true ->
    P_number_of_features (e_params e) = Ret (Z.of_nat nf) ->
    (v_ok vw nf x /\ check_for_predict S A e x = Ret S_OK) \/
    (~ v_ok vw nf x /\ check_for_predict S A e x = Ret S_VALUE_ERROR).
  Proof.
    intros Hx Hf Hn. unfold check_for_predict. rewrite Hf, Hn. cbn [negb obind]. rewrite (v_ok_iff nf x Hx).
    destruct (Z.eqb_spec (Z.of_nat (a_size A x)) (Z.of_nat nf)) as [E|E]; cbn [negb]; [|right; split; [lia|done]].
    destruct (a_01 A x) eqn:E1; cbn [negb]; [|right; split; [naive_solver|done]].
    destruct (l_pad _ _ _ _ _ _ _ _ _ _ _ Lw x Hx) as [b Eb]. rewrite Eb. cbn [obind]. destruct b.
    - left. split; [|done]. split; [lia|done].
    - right. split; [naive_solver|done].
  Qed.

  Lemma same_size_iff X x : same_size A (x :: X) = true <-> Forall (fun r => a_size A r = a_size A x) X.
  Proof.
    unfold same_size. rewrite forallb_forall, Forall_forall. split; intros H y Hy; [apply Nat.eqb_eq|apply Nat.eqb_eq]; apply H;
      by apply elem_of_list_In.
  Qed.
  Definition batch_ok (nf : nat) (X : list smp) : Prop := X <> [] /\ Forall (v_ok vw nf) X.
  Lemma Forall_forallb {T} (f : T -> bool) l : Forall (fun x => f x = true) l <-> forallb f l = true.
  Proof. rewrite forallb_forall, Forall_forall. split; intros H y Hy; apply H; by apply elem_of_list_In. Qed.
  Lemma all_ok_iff nf x X : Forall (v_phys vw) (x :: X) ->
    Forall (v_ok vw nf) (x :: X) <->
    same_size A (x :: X) = true /\ a_size A x = nf /\ forallb (a_01 A) (x :: X) = true /\
    Forall (fun x => a_pad A x = Ret true) (x :: X).
  Proof.
    intros HX. rewrite same_size_iff. rewrite <- Forall_forallb.
    split.
    - intros H. assert (Forall (fun y => a_size A y = nf /\ a_01 A y = true /\ a_pad A y = Ret true) (x :: X)) as H'.
      { rewrite Forall_forall in *. intros y Hy. apply v_ok_iff; auto. }
      apply Forall_and in H' as [H1 H']. apply Forall_and in H' as [H2 H3]. inversion H1; subst. done.
    - intros (H1 & H2 & H3 & H4). subst nf. rewrite Forall_forall in *. intros y Hy. apply v_ok_iff; [auto|].
      split; [|auto]. apply elem_of_cons in Hy as [->|Hy]; [done|]. by apply H1.
  Qed.
  Lemma check_batch_spec (e : est) (nf : nat) X : Forall (v_phys vw) X -> is_fitted A (e_ta e) = true ->
    P_number_of_features (e_params e) = Ret (Z.of_nat nf) ->
    (batch_ok nf X /\ check_for_predict_batch S A e X = Ret S_OK) \/
    (~ batch_ok nf X /\ check_for_predict_batch S A e X = Ret S_VALUE_ERROR).
  Proof.
    intros HX Hf Hn. unfold check_for_predict_batch, batch_ok. rewrite Hf, Hn. cbn [negb].
    destruct X as [|x X]; [right; split; [naive_solver|done]|]. cbn [length Nat.eqb].
    rewrite (all_ok_iff nf x X HX).
    destruct (same_size A (x :: X)); cbn [negb]; [|right; split; [naive_solver|done]]. cbn [front_size obind].
    destruct (Z.eqb_spec (Z.of_nat (a_size A x)) (Z.of_nat nf)) as [E|E]; cbn [negb]; [|right; split; [|done]; intros (_ & _ & ? & _); lia].
    destruct (forallb (a_01 A) (x :: X)); cbn [negb]; [|right; split; [naive_solver|done]].
    destruct (oall_total (x :: X) HX) as (b & -> & Hb). cbn [obind]. destruct b.
    - left. split; [|done]. split; [done|]. split; [done|]. split; [lia|]. split; [done|]. by apply Hb.
    - right. split; [|done]. intros (_ & _ & _ & _ & H). apply Hb in H. done.
  Qed.
  Lemma check_single_unfitted (e : est) x : is_fitted A (e_ta e) = false -> check_for_predict S A e x = Ret S_NOT_FITTED_ERROR.
  Proof. intros H. unfold check_for_predict. by rewrite H. Qed.
  Lemma check_batch_unfitted (e : est) X : is_fitted A (e_ta e) = false -> check_for_predict_batch S A e X = Ret S_NOT_FITTED_ERROR.
  Proof. intros H. unfold check_for_predict_batch. by rewrite H. Qed.
  Lemma rows_fitted n nf (s : ta) : I n nf (ta_matrix s) (ta_pol s) -> (0 < n)%nat -> is_fitted A s = true.
  Proof.
    intros HI Hn. unfold is_fitted. rewrite (l_rows _ _ _ _ _ _ _ _ _ _ _ Lw _ _ _ _ HI).
    destruct (Nat.eqb_spec (2 * n) 0); [lia|done].
  Qed.

  (** ** Classifier *)
  (** everything training and prediction maintain on a fitted classifier, apart from parameters *)
  Record clf_core (a : clf_args) (L nf : nat) (st : G * F * ta * cache) : Prop := {
    cc_auto : I (L * clf_opl a) nf (ta_matrix st.1.2) (ta_pol st.1.2);
    cc_weights : weights_ok (ca_weighted a) (ca_max_weight a) (L * clf_opl a) (ta_weights st.1.2);
    cc_lens : lens (L * clf_opl a) L st.2;
    cc_ct : ct_ok R g_ok U V nf (ca_ct st.2);
    cc_rate : exists ct0, ct_make (f32_div f32_one (ca_s a)) (Z.of_nat nf) = Ret ct0 /\ same_rate ct0 (ca_ct st.2);
    cc_g : g_ok st.1.1.1;
    cc_f : f_ok st.1.1.2 }.
  Record clf_dims (a : clf_args) (L nf : nat) (p : params) : Prop := {
    cd_has : clf_has a p;
    cd_labels : P_number_of_labels p = Ret (Z.of_nat L);
    cd_features : P_number_of_features p = Ret (Z.of_nat nf);
    cd_L : (1 <= L)%nat;
    cd_n : Z.of_nat L * ca_clauses a <= int_max }.
  Definition clf_fitted (a : clf_args) (L nf : nat) (e : est) : Prop :=
    clf_valid a /\ clf_dims a L nf (e_params e) /\ clf_core a L nf (e_igen e, e_fgen e, e_ta e, e_cache e).

  Section Clf.
    Context (a : clf_args) (L nf : nat) (Ha : clf_valid a).
    Notation opl := (clf_opl a).

    Lemma clf_n_bound p : clf_dims a L nf p -> Z.of_nat (L * opl) <= int_max /\ (0 < L * opl)%nat.
    Proof. intros []. destruct (clf_opl_facts a Ha) as (Ec & _ & _ & Eo). rewrite Ec in cd_n0. nia. Qed.
    Lemma P_opl p : clf_has a p -> P_outputs_per_label p = Ret (Z.of_nat opl).
    Proof.
      intros []. unfold P_outputs_per_label. change (at_int p "number_of_clauses_per_label") with (P_clauses_per_label p).
      rewrite ch_clauses. cbn [obind]. destruct (clf_opl_facts a Ha) as (_ & -> & _). done.
    Qed.
    Lemma P_outputs p : clf_dims a L nf p -> P_clf_outputs p = Ret (Z.of_nat (L * opl)).
    Proof.
      intros H. pose proof (clf_n_bound p H) as [Hb _]. destruct H. unfold P_clf_outputs. rewrite cd_labels0, P_opl by done. cbn [obind].
      rewrite ci32_ret by (unfold int_min; lia). f_equal. lia.
    Qed.

    Lemma label_votes_spec (e : est) x c n_jobs tile :
      I (L * opl) nf (ta_matrix (e_ta e)) (ta_pol (e_ta e)) ->
      weights_ok (ca_weighted a) (ca_max_weight a) (L * opl) (ta_weights (e_ta e)) ->
      Z.of_nat (L * opl) <= int_max -> lens (L * opl) L c -> v_ok vw nf x -> tile_known tile ->
      exists c', label_votes S A e x c (Z.of_nat L) (Z.of_nat opl) (ca_threshold a) (Z.of_nat (L * opl)) n_jobs tile = Ret c' /\
        keep c c' /\ ca_sum c' = clf_votes vw a L nf (e_ta e) x.
    Proof.
      intros HI Hw Hn (Lf & Lo & Ls) Hx Ht. unfold label_votes.
      destruct (calc_pruned_spec (L * opl) nf x c (e_ta e) n_jobs tile HI Hx Ht Lo) as (c1 & Ec & K & Es & Ho).
      rewrite Ec. cbn [obind]. destruct (clf_opl_facts a Ha) as (_ & _ & He & _). destruct Ha as [[] [] _].
      rewrite (sum_all_spec (ca_weighted a) (ca_max_weight a) L opl (ca_threshold a) (ca_out c1) _ (ca_sum c1)
        (fires_pruned vw nf (e_ta e) x)); try done.
      - eexists. split; [done|]. cbn. split; [|done]. destruct K as (K1 & K2 & K3 & K4).
        split; [done|]. split; [done|]. split; [done|]. cbn. rewrite map_length, seq_length. congruence.
      - split; [done|]. apply ct_maxw.
      - lia.
      - congruence.
    Qed.

    Section Fitted.
      Context (e : est) (He : clf_fitted a L nf e).
      Notation votes x := (clf_votes vw a L nf (e_ta e) x).

      Lemma clf_is_fitted : is_fitted A (e_ta e) = true.
      Proof. destruct He as (_ & Hd & []). eapply rows_fitted; [done|]. apply (clf_n_bound _ Hd). Qed.

      Ltac getp := destruct He as (_ & [[] ? ? ? ?] & [? ? ? ? ? ? ?]); cbn [fst snd] in *.

      Lemma clf_votes_step x c : lens (L * opl) L c -> v_ok vw nf x -> forall nj,
        exists c', label_votes S A e x c (Z.of_nat L) (Z.of_nat opl) (ca_threshold a) (Z.of_nat (L * opl)) nj (ca_tile a) = Ret c' /\
          keep c c' /\ ca_sum c' = votes x.
      Proof.
        intros Hc Hx nj. pose proof (clf_n_bound _ (proj1 (proj2 He))) as [Hb _].
        getp. apply label_votes_spec; try done. destruct Ha as [_ [] _]. done.
      Qed.

      Lemma clf_predict1_spec x : v_phys vw x ->
        (v_ok vw nf x /\ exists c', clf_predict1 S A e x = Ret (Right (clf_label vw a L nf (e_ta e) x), with_cache S A c' e) /\ keep (e_cache e) c') \/
        (~ v_ok vw nf x /\ clf_predict1 S A e x = Ret (Left S_VALUE_ERROR, e)).
      Proof.
        intros Hx. pose proof (P_outputs _ (proj1 (proj2 He))) as Po. pose proof (P_opl _ (cd_has _ _ _ _ (proj1 (proj2 He)))) as Pl.
        destruct (check_single_spec e nf x Hx clf_is_fitted (cd_features _ _ _ _ (proj1 (proj2 He)))) as [[Hok E]|[Hno E]].
        - left. split; [done|]. destruct (clf_votes_step x (e_cache e)) with (nj := ca_n_jobs a) as (c' & Ec & K & Es); [by getp|done|].
          exists c'. split; [|done]. unfold clf_predict1. rewrite E. cbn [obind]. rewrite decide_False by naive_solver.
          getp. rewrite ch_njobs, ch_tile, Po, cd_labels0, Pl, ch_threshold. cbn [obind]. rewrite Ec. cbn [obind]. rewrite Es. done.
        - right. split; [done|]. unfold clf_predict1. rewrite E. done.
      Qed.
      Lemma clf_decision1_spec x : v_phys vw x ->
        (v_ok vw nf x /\ exists c', clf_decision1 S A e x = Ret (Right (votes x), with_cache S A c' e) /\ keep (e_cache e) c') \/
        (~ v_ok vw nf x /\ clf_decision1 S A e x = Ret (Left S_VALUE_ERROR, e)).
      Proof.
        intros Hx. pose proof (P_outputs _ (proj1 (proj2 He))) as Po. pose proof (P_opl _ (cd_has _ _ _ _ (proj1 (proj2 He)))) as Pl.
        destruct (check_single_spec e nf x Hx clf_is_fitted (cd_features _ _ _ _ (proj1 (proj2 He)))) as [[Hok E]|[Hno E]].
        - left. split; [done|]. destruct (clf_votes_step x (e_cache e)) with (nj := ca_n_jobs a) as (c' & Ec & K & Es); [by getp|done|].
          exists c'. split; [|done]. unfold clf_decision1. rewrite E. cbn [obind]. rewrite decide_False by naive_solver.
          getp. rewrite cd_labels0, Pl, ch_threshold, Po, ch_njobs, ch_tile. cbn [obind]. rewrite Ec. cbn [obind]. rewrite Es. done.
        - right. split; [done|]. unfold clf_decision1. rewrite E. done.
      Qed.
      (** the batch loops *)
      Lemma clf_batch_loop {T} (d : T) (h : list Z -> T) X nj : Forall (v_ok vw nf) X ->
        exists c', ofor 0 (length X) (replicate (length X) d, e_cache e) (fun it '(rv, c) =>
            let* x := vget X it in
            let* c := label_votes S A e x c (Z.of_nat L) (Z.of_nat opl) (ca_threshold a) (Z.of_nat (L * opl)) nj (ca_tile a) in
            let* rv := vset rv it (h (ca_sum c)) in
            Ret (rv, c)) = Ret ((fun x => h (votes x)) <$> X, c') /\ keep (e_cache e) c'.
      Proof.
        intros HX. assert (lens (L * opl) L (e_cache e)) as Hl by (by getp).
        destruct (ofor_inv (fun i '(rv, c) => length rv = length X /\ keep (e_cache e) c /\
          forall k x, (k < i)%nat -> X !! k = Some x -> rv !! k = Some (h (votes x))) 0 (length X) (replicate (length X) d, e_cache e)
          (fun it '(rv, c) =>
            let* x := vget X it in
            let* c := label_votes S A e x c (Z.of_nat L) (Z.of_nat opl) (ca_threshold a) (Z.of_nat (L * opl)) nj (ca_tile a) in
            let* rv := vset rv it (h (ca_sum c)) in
            Ret (rv, c))) as ([rv c'] & E & Er & K & Hr).
        - split; [by rewrite replicate_length|]. split; [done|]. intros; lia.
        - intros i [rv c] Hi (Er & K & Hr). destruct (vget_ret_lt X i) as (x & Ex & ->); [lia|]. cbn [obind].
          destruct (clf_votes_step x c) with (nj := nj) as (c1 & Ec & K1 & Es);
            [by eapply keep_lens|by eapply Forall_lookup_1 in HX|]. rewrite Ec. cbn [obind].
          rewrite vset_ret by lia. cbn [obind]. eexists. split; [done|]. split; [by rewrite insert_length|].
          split; [by eapply keep_trans|]. intros k x' Hk Ex'. destruct (decide (k = i)) as [->|Hne].
          + rewrite list_lookup_insert by lia. rewrite Es. simplify_eq. done.
          + rewrite list_lookup_insert_ne by done. apply Hr; [lia|done].
        - exists c'. rewrite E. split; [|done]. do 2 f_equal. apply list_eq. intros i. rewrite list_lookup_fmap.
          destruct (X !! i) as [x|] eqn:Ex; cbn.
          + apply Hr; [|done]. apply lookup_lt_Some in Ex. lia.
          + apply lookup_ge_None_2. apply lookup_ge_None_1 in Ex. lia.
      Qed.
      Lemma clf_predict_spec X : Forall (v_phys vw) X ->
        (batch_ok nf X /\ exists c', clf_predict S A e X = Ret (Right (clf_label vw a L nf (e_ta e) <$> X), with_cache S A c' e) /\ keep (e_cache e) c') \/
        (~ batch_ok nf X /\ clf_predict S A e X = Ret (Left S_VALUE_ERROR, e)).
      Proof.
        intros HX. pose proof (P_outputs _ (proj1 (proj2 He))) as Po. pose proof (P_opl _ (cd_has _ _ _ _ (proj1 (proj2 He)))) as Pl.
        destruct (check_batch_spec e nf X HX clf_is_fitted (cd_features _ _ _ _ (proj1 (proj2 He)))) as [[Hok E]|[Hno E]].
        - left. split; [done|]. destruct (clf_batch_loop 0 (fun v => Z.of_nat (argmax v)) X (ca_n_jobs a)) as (c' & Ec & K); [apply Hok|].
          exists c'. split; [|done]. unfold clf_predict. rewrite E. cbn [obind]. rewrite decide_False by naive_solver.
          getp. rewrite cd_labels0, Pl, ch_threshold, Po, ch_njobs, ch_tile. cbn [obind]. rewrite Ec. done.
        - right. split; [done|]. unfold clf_predict. rewrite E. done.
      Qed.
      Lemma clf_decision_spec X : Forall (v_phys vw) X ->
        (batch_ok nf X /\ exists c', clf_decision S A e X = Ret (Right (clf_votes vw a L nf (e_ta e) <$> X), with_cache S A c' e) /\ keep (e_cache e) c') \/
        (~ batch_ok nf X /\ clf_decision S A e X = Ret (Left S_VALUE_ERROR, e)).
      Proof.
        intros HX. pose proof (P_outputs _ (proj1 (proj2 He))) as Po. pose proof (P_opl _ (cd_has _ _ _ _ (proj1 (proj2 He)))) as Pl.
        destruct (check_batch_spec e nf X HX clf_is_fitted (cd_features _ _ _ _ (proj1 (proj2 He)))) as [[Hok E]|[Hno E]].
        - left. split; [done|]. destruct (clf_batch_loop [] (fun v => v) X (ca_n_jobs a)) as (c' & Ec & K); [apply Hok|].
          exists c'. split; [|done]. unfold clf_decision. rewrite E. cbn [obind]. rewrite decide_False by naive_solver.
          getp. rewrite cd_labels0, Pl, ch_threshold, Po, ch_njobs, ch_tile. cbn [obind]. rewrite Ec. done.
        - right. split; [done|]. unfold clf_decision. rewrite E. done.
      Qed.

      (** evaluate: number of mismatches of a batch of valid samples *)
      Definition mismatches (X : list smp) (y : list Z) : Z :=
        Z.of_nat (length (filter (fun '(x, yi) => clf_label vw a L nf (e_ta e) x <> yi) (zip X y))).
      Definition accuracy32 (errors n : Z) : float32 :=
        f32_sub f32_one (f32_div (f32_mul f32_one (f32_of_Z errors)) (f32_of_Z n)).
      Lemma clf_evaluate_spec X y : Forall (v_ok vw nf) X -> (length X <= length y)%nat -> Z.of_nat (length X) <= int_max ->
        exists c', clf_evaluate S A e X y = Ret (Right (accuracy32 (mismatches X y) (Z.of_nat (length X))), with_cache S A c' e) /\
          keep (e_cache e) c'.
      Proof.
        intros HX Hy Hlen. pose proof (P_outputs _ (proj1 (proj2 He))) as Po. pose proof (P_opl _ (cd_has _ _ _ _ (proj1 (proj2 He)))) as Pl.
        assert (lens (L * opl) L (e_cache e)) as Hl by (by getp).
        set (bad := fun '(x, yi) => clf_label vw a L nf (e_ta e) x <> yi).
        destruct (ofor_inv (fun i '(errors, c) => keep (e_cache e) c /\
          errors = Z.of_nat (length (filter bad (take i (zip X y))))) 0 (length X) (0, e_cache e)
          (fun it '(errors, c) =>
            let* x := vget X it in
            let* c := label_votes S A e x c (Z.of_nat L) (Z.of_nat opl) (ca_threshold a) (Z.of_nat (L * opl)) (ca_n_jobs a) (ca_tile a) in
            let* yi := vget y it in
            let* errors := ci32 (errors + b2z (negb (Z.of_nat (argmax (ca_sum c)) =? yi))) in
            Ret (errors, c))) as ([errors c'] & E & K & Hr).
        - done.
        - intros i [errors c] Hi (K & ->). destruct (vget_ret_lt X i) as (x & Ex & ->); [lia|]. cbn [obind].
          destruct (clf_votes_step x c) with (nj := ca_n_jobs a) as (c1 & Ec & K1 & Es);
            [by eapply keep_lens|by eapply Forall_lookup_1 in HX|]. rewrite Ec. cbn [obind].
          destruct (vget_ret_lt y i) as (yi & Ey & ->); [lia|]. cbn [obind].
          assert (zip X y !! i = Some (x, yi)) as Ez by (by apply lookup_zip_with_Some; eauto).
          assert (length (filter bad (take (i + 1) (zip X y))) =
            (length (filter bad (take i (zip X y))) + (if decide (bad (x, yi)) then 1 else 0))%nat) as Ef.
          { rewrite Nat.add_1_r, (take_S_r _ _ _ Ez), filter_app, app_length. f_equal. destruct (decide (bad (x, yi))) as [Hb|Hb];
              [by rewrite filter_cons_True|by rewrite filter_cons_False]. }
          assert (negb (Z.of_nat (argmax (ca_sum c1)) =? yi) = bool_decide (bad (x, yi))) as Eb.
          { rewrite Es. unfold bad, clf_label. destruct (Z.eqb_spec (Z.of_nat (argmax (votes x))) yi); cbn [negb];
              case_bool_decide; done. }
          rewrite Eb. rewrite ci32_ret.
          + eexists. cbn [obind]. split; [done|]. split; [by eapply keep_trans|]. rewrite Ef.
            case_bool_decide as Hb; cbn [b2z];
              [rewrite decide_True by done|rewrite decide_False by done]; lia.
          + pose proof (filter_length bad (take i (zip X y))) as Hf. rewrite take_length in Hf.
            unfold int_min, int_max, b2z in *. destruct (bool_decide _); lia.
        - exists c'. split; [|done]. unfold clf_evaluate.
          getp. rewrite cd_labels0, Pl, ch_threshold, Po, ch_njobs, ch_tile. cbn [obind]. rewrite E. cbn [obind].
          rewrite Hr. rewrite take_ge by (rewrite zip_with_length; lia). done.
      Qed.
    End Fitted.
  End Clf.

  (** ** Regressor *)
  Record reg_core (a : reg_args) (nf : nat) (st : G * ta * cache) : Prop := {
    rc_auto : I (reg_n a) nf (ta_matrix st.1.2) (ta_pol st.1.2);
    rc_weights : weights_ok (ra_weighted a) (ra_max_weight a) (reg_n a) (ta_weights st.1.2);
    rc_len : length (ca_out st.2) = reg_n a /\ ca_fb st.2 = [] /\ ca_sum st.2 = [];
    rc_ct : ct_ok R g_ok U V nf (ca_ct st.2);
    rc_rate : exists ct0, ct_make (f32_div f32_one (ra_s a)) (Z.of_nat nf) = Ret ct0 /\ same_rate ct0 (ca_ct st.2);
    rc_g : g_ok st.1.1 }.
  Record reg_dims (a : reg_args) (nf : nat) (p : params) : Prop := {
    rd_has : reg_has a p;
    rd_features : P_number_of_features p = Ret (Z.of_nat nf) }.
  Definition reg_fitted (a : reg_args) (nf : nat) (e : est) : Prop :=
    reg_valid a /\ reg_dims a nf (e_params e) /\ reg_core a nf (e_igen e, e_ta e, e_cache e).

  Section Reg.
    Context (a : reg_args) (nf : nat) (Ha : reg_valid a).
    Notation n := (reg_n a).
    Lemma reg_n_bound : Z.of_nat n <= int_max.
    Proof. destruct (reg_n_facts a Ha) as (E & _). destruct Ha as [[] _ _]. unfold is_int, int_max in *. lia. Qed.
    Lemma P_reg_n p : reg_has a p -> P_reg_outputs p = Ret (Z.of_nat n).
    Proof.
      intros []. unfold P_reg_outputs. change (at_int p "number_of_regressor_clauses") with (P_reg_clauses p).
      rewrite rh_clauses. cbn [obind]. destruct (reg_n_facts a Ha) as (_ & -> & _). done.
    Qed.
    Section Fitted.
      Context (e : est) (He : reg_fitted a nf e).
      Ltac getp := destruct He as (_ & [[] ?] & [? ? ? ? ? ?]); cbn [fst snd] in *.
      Lemma reg_is_fitted : is_fitted A (e_ta e) = true.
      Proof. destruct He as (_ & Hd & []). eapply rows_fitted; [done|]. by destruct (reg_n_facts a Ha) as (_ & _ & ?). Qed.
      Lemma reg_votes_step x c nj : length (ca_out c) = n -> v_ok vw nf x ->
        exists c', calc_clause_output_pruned S A x c (Z.of_nat n) (e_ta e) nj (ra_tile a) = Ret c' /\ keep c c' /\
          sum_up_regressor_votes (ca_out c') (ra_threshold a) (ta_weights (e_ta e)) = Ret (reg_response vw a nf (e_ta e) x).
      Proof.
        intros Hc Hx. getp. destruct Ha as [Ht Hv _]. destruct Hv.
        destruct (calc_pruned_spec n nf x c (e_ta e) nj (ra_tile a)) as (c1 & Ec & K & Es & Ho); try done.
        exists c1. split; [done|]. split; [done|]. destruct Ht. pose proof reg_n_bound.
        rewrite (sum_reg_spec (ra_weighted a) (ra_max_weight a) n _ _ _ (fires_pruned vw nf (e_ta e) x)); try done.
        - split; [done|]. apply rt_maxw.
        - lia.
        - destruct K as (_ & _ & K & _). congruence.
      Qed.
      Lemma reg_predict1_spec x : v_phys vw x ->
        (v_ok vw nf x /\ exists c', reg_predict1 S A e x = Ret (Right (reg_response vw a nf (e_ta e) x), with_cache S A c' e) /\ keep (e_cache e) c') \/
        (~ v_ok vw nf x /\ reg_predict1 S A e x = Ret (Left S_VALUE_ERROR, e)).
      Proof.
        intros Hx. pose proof (P_reg_n _ (rd_has _ _ _ (proj1 (proj2 He)))) as Po.
        destruct (check_single_spec e nf x Hx reg_is_fitted (rd_features _ _ _ (proj1 (proj2 He)))) as [[Hok E]|[Hno E]].
        - left. split; [done|]. destruct (reg_votes_step x (e_cache e) (ra_n_jobs a)) as (c' & Ec & K & Es); [by apply He|done|].
          exists c'. split; [|done]. unfold reg_predict1. rewrite E. cbn [obind]. rewrite decide_False by naive_solver.
          getp. rewrite rh_njobs, rh_tile, Po, rh_threshold. cbn [obind]. rewrite Ec. cbn [obind]. rewrite Es. done.
        - right. split; [done|]. unfold reg_predict1. rewrite E. done.
      Qed.
      Lemma reg_predict_spec X : Forall (v_phys vw) X ->
        (batch_ok nf X /\ exists c', reg_predict S A e X = Ret (Right (reg_response vw a nf (e_ta e) <$> X), with_cache S A c' e) /\ keep (e_cache e) c') \/
        (~ batch_ok nf X /\ reg_predict S A e X = Ret (Left S_VALUE_ERROR, e)).
      Proof.
        intros HX. pose proof (P_reg_n _ (rd_has _ _ _ (proj1 (proj2 He)))) as Po.
        destruct (check_batch_spec e nf X HX reg_is_fitted (rd_features _ _ _ (proj1 (proj2 He)))) as [[Hok E]|[Hno E]].
        - left. split; [done|].
          assert (length (ca_out (e_cache e)) = n) as Hl by (by apply He). destruct Hok as [_ Hok].
          destruct (ofor_inv (fun i '(rv, c) => length rv = length X /\ keep (e_cache e) c /\
            forall k x, (k < i)%nat -> X !! k = Some x -> rv !! k = Some (reg_response vw a nf (e_ta e) x)) 0 (length X)
            (replicate (length X) 0, e_cache e)
            (fun it '(rv, c) =>
              let* x := vget X it in
              let* c := calc_clause_output_pruned S A x c (Z.of_nat n) (e_ta e) (ra_n_jobs a) (ra_tile a) in
              let* v := sum_up_regressor_votes (ca_out c) (ra_threshold a) (ta_weights (e_ta e)) in
              let* rv := vset rv it v in
              Ret (rv, c))) as ([rv c'] & E' & Er & K & Hr).
          + split; [by rewrite replicate_length|]. split; [done|]. intros; lia.
          + intros i [rv c] Hi (Er & K & Hr). destruct (vget_ret_lt X i) as (x & Ex & ->); [lia|]. cbn [obind].
            destruct (reg_votes_step x c (ra_n_jobs a)) as (c1 & Ec & K1 & Es);
              [destruct K as (_ & _ & K & _); congruence|by eapply Forall_lookup_1 in Hok|]. rewrite Ec. cbn [obind]. rewrite Es. cbn [obind].
            rewrite vset_ret by lia. cbn [obind]. eexists. split; [done|]. split; [by rewrite insert_length|].
            split; [by eapply keep_trans|]. intros k x' Hk Ex'. destruct (decide (k = i)) as [->|Hne].
            * rewrite list_lookup_insert by lia. simplify_eq. done.
            * rewrite list_lookup_insert_ne by done. apply Hr; [lia|done].
          + exists c'. split; [|done]. unfold reg_predict. rewrite E. cbn [obind]. rewrite decide_False by naive_solver.
            getp. rewrite rh_threshold, Po, rh_njobs, rh_tile. cbn [obind]. rewrite E'. cbn [obind]. do 3 f_equal.
            apply list_eq. intros i. rewrite list_lookup_fmap. destruct (X !! i) as [x|] eqn:Ex; cbn.
            * apply Hr; [|done]. apply lookup_lt_Some in Ex. lia.
            * apply lookup_ge_None_2. apply lookup_ge_None_1 in Ex. lia.
        - right. split; [done|]. unfold reg_predict. rewrite E. done.
      Qed.
    End Fitted.
  End Reg.
End Predict.
