(** * Lemmas in the form in which the property theorems state them. *)
From Verif Require Export OneStep.
From Coq Require Import Permutation.
From stdpp Require Import list.
Local Open Scope Z_scope.

(** ** Clause outputs for arbitrary automata (C01, C02) *)

(** the output vector says [P] about clause [j] *)
Definition outputs (out : list Z) (j : nat) (P : Prop) : Prop :=
  exists v, out !! j = Some v /\ (v = 0 \/ v = 1) /\ (v = 1 <-> P).
(** clause [j] of an automaton matrix: every included literal holds / some literal is included *)
Definition satisfied_by_states (m : nmatrix) (nf j : nat) (x : list Z) : Prop :=
  forall k, (k < nf)%nat -> (0 <= nm_cell m (2 * j) k -> x !! k = Some 1) /\ (0 <= nm_cell m (2 * j + 1) k -> x !! k = Some 0).
Definition nonempty_states (m : nmatrix) (nf j : nat) : Prop :=
  exists k, (k < nf)%nat /\ (0 <= nm_cell m (2 * j) k \/ 0 <= nm_cell m (2 * j + 1) k).
(** the same in terms of polarity bits *)
Definition satisfied_by_bits (p : bmatrix) (nf j : nat) (x : bit_vector) : Prop :=
  forall k, (k < nf)%nat -> (bm_bit 64 p (2 * j) k = true -> bv_bit 64 x k = true) /\
                            (bm_bit 64 p (2 * j + 1) k = true -> bv_bit 64 x k = false).
Definition nonempty_bits (p : bmatrix) (nf j : nat) : Prop :=
  exists k, (k < nf)%nat /\ (bm_bit 64 p (2 * j) k = true \/ bm_bit 64 p (2 * j + 1) k = true).

Lemma dense_bit_val nf x k : dense_ok nf x -> (k < nf)%nat -> (dense_bit x k = true <-> x !! k = Some 1) /\ (dense_bit x k = false <-> x !! k = Some 0).
Proof.
  intros [El Hf] Hk. unfold dense_bit. destruct (lookup_lt_is_Some_2 x k ltac:(lia)) as [v E]. rewrite E.
  pose proof (Forall_lookup_1 _ _ _ _ Hf E) as [-> | ->]; cbn; split; split; congruence.
Qed.
Lemma satisfied_states_iff m nf j x : dense_ok nf x ->
  clause_true nf (auto_inc m j) (auto_incn m j) (dense_bit x) = true <-> satisfied_by_states m nf j x.
Proof.
  intros Hx. rewrite clause_true_iff. unfold satisfied_by_states, auto_inc, auto_incn. split; intros H k Hk; specialize (H k Hk);
    destruct (dense_bit_val nf x k Hx Hk) as [E1 E2]; rewrite ?Z.leb_le in *; tauto.
Qed.
Lemma nonempty_states_iff m nf j : clause_nonempty nf (auto_inc m j) (auto_incn m j) = true <-> nonempty_states m nf j.
Proof. rewrite clause_nonempty_iff. unfold nonempty_states, auto_inc, auto_incn. by setoid_rewrite Z.leb_le. Qed.
Lemma satisfied_bits_iff p nf j x :
  clause_true nf (pol_inc p j) (pol_incn p j) (bv_bit 64 x) = true <-> satisfied_by_bits p nf j x.
Proof. apply clause_true_iff. Qed.
Lemma nonempty_bits_iff p nf j : clause_nonempty nf (pol_inc p j) (pol_incn p j) = true <-> nonempty_bits p nf j.
Proof. apply clause_nonempty_iff. Qed.

Lemma outputs_b2z out j b P : out !! j = Some (b2z b) -> (b = true <-> P) -> outputs out j P.
Proof.
  intros E H. exists (b2z b). split; [done|]. split; [destruct b; cbn; auto|]. rewrite <- H. destruct b; cbn; split; congruence.
Qed.

Section Outputs.
  Context (R : rnd) (S : sch) (HS : sch_ok S).
  Lemma order_in s nj b e i : i ∈ (sched S s nj b e).1 <-> (b <= i < e)%nat.
  Proof. rewrite (HS s nj b e), elem_of_seq. lia. Qed.
  Section Gen.
    Context (A : algo R) (s : tastate (a_pol A)) (x : a_smp A) (n : nat) (P Q : nat -> Prop).
    Context (H1 : forall j B, (j < n)%nat -> (0 < B)%nat -> exists b, a_clause A B x s j = Ret (b2z b) /\ (b = true <-> P j)).
    Context (H2 : forall j B, (j < n)%nat -> (0 < B)%nat -> exists b, a_clause_pruned A B x s j = Ret (b2z b) /\ (b = true <-> Q j)).
    Lemma gen_loop (clause : nat -> nat -> outcome Z) (PP : nat -> Prop) B co order lo hi :
      (forall j B, (j < n)%nat -> (0 < B)%nat -> exists b, clause B j = Ret (b2z b) /\ (b = true <-> PP j)) ->
      (0 < B)%nat -> (forall i, i ∈ order <-> (lo <= i < hi)%nat) -> (hi <= n)%nat -> length co = n ->
      exists co', clause_loop (clause B) co order = Ret co' /\ length co' = length co /\
        forall j, (lo <= j < hi)%nat -> outputs co' j (PP j).
    Proof.
      intros H HB Hin Hhi El.
      destruct (clause_loop_spec (clause B) (fun j => match clause B j with Ret v => v | _ => 0 end) co order) as (co' & E & El' & Hi).
      - intros j Hj%Hin. destruct (H j B ltac:(lia) HB) as (b & -> & _). done.
      - intros j Hj%Hin. lia.
      - exists co'. split; [done|]. split; [done|]. intros j Hj. destruct (H j B ltac:(lia) HB) as (b & Eb & Hb).
        apply (outputs_b2z _ _ b); [|done]. rewrite Hi, decide_True by (by apply Hin). by rewrite Eb.
    Qed.
    Lemma gen_outputs c n_jobs tile : length (ca_out c) = n ->
      (exists c', calc_clause_output_pruned S A x c (Z.of_nat n) s n_jobs tile = Ret c' /\ forall j, (j < n)%nat -> outputs (ca_out c') j (Q j)) /\
      (forall b e, (e <= n)%nat -> exists c', calc_clause_output S A x c (Z.of_nat b) (Z.of_nat e) s n_jobs tile = Ret c' /\
         forall j, (b <= j < e)%nat -> outputs (ca_out c') j (P j)).
    Proof.
      intros El. split.
      - unfold calc_clause_output_pruned. rewrite Nat2Z.id. pose proof (order_in (ca_sched c) n_jobs 0 n) as Hin.
        destruct (sched S (ca_sched c) n_jobs 0 n) as [order ss]. cbn [fst] in Hin.
        destruct (gen_loop (fun B => a_clause_pruned A B x s) Q (tile_of tile) (ca_out c) order 0 n H2) as (co' & -> & _ & Ho); try done.
        { unfold tile_of. repeat case_match; lia. }
        cbn [obind]. eexists. split; [done|]. intros j Hj. apply Ho. lia.
      - intros b e He. unfold calc_clause_output. rewrite (proj2 (Z.ltb_ge (Z.of_nat b) 0)) by lia. cbn [andb].
        rewrite !Nat2Z.id. pose proof (order_in (ca_sched c) n_jobs b e) as Hin.
        destruct (sched S (ca_sched c) n_jobs b e) as [order ss]. cbn [fst] in Hin.
        destruct (gen_loop (fun B => a_clause A B x s) P (tile_of tile) (ca_out c) order b e H1) as (co' & -> & _ & Ho); try done.
        { unfold tile_of. repeat case_match; lia. }
        cbn [obind]. eexists. split; [done|]. intros j Hj. by apply Ho.
    Qed.
  End Gen.
  Lemma classic_outputs m ws pol nf n x c n_jobs tile :
    nm_sized m -> nm_rows m = (2 * n)%nat -> nm_cols m = nf -> dense_ok nf x -> length (ca_out c) = n ->
    (exists c', calc_clause_output_pruned S (classic R) x c (Z.of_nat n) (TA m ws pol) n_jobs tile = Ret c' /\
       forall j, (j < n)%nat -> outputs (ca_out c') j (satisfied_by_states m nf j x /\ nonempty_states m nf j)) /\
    (forall b e, (e <= n)%nat -> exists c', calc_clause_output S (classic R) x c (Z.of_nat b) (Z.of_nat e) (TA m ws pol) n_jobs tile = Ret c' /\
       forall j, (b <= j < e)%nat -> outputs (ca_out c') j (satisfied_by_states m nf j x)).
  Proof.
    intros Hm Hr Hc Hx El. apply gen_outputs; [| |done].
    - intros j B Hj HB. destruct Hx as [Hx1 Hx2]. cbn [a_clause classic ta_matrix]. rewrite (cl_clause_spec B x m j); [|done|done|congruence|lia|done].
      eexists. split; [done|]. rewrite Hx1. by apply satisfied_states_iff.
    - intros j B Hj HB. destruct Hx as [Hx1 Hx2]. cbn [a_clause_pruned classic ta_matrix]. rewrite (clp_clause_spec B x m j); [|done|done|congruence|lia|done].
      eexists. split; [done|]. rewrite Hx1, andb_true_iff, satisfied_states_iff, nonempty_states_iff; done.
  Qed.
  Lemma bitwise_outputs m ws pol nf n x c n_jobs tile :
    bm_wf 64 pol -> bm_clear_padding 64 pol -> bm_rows pol = (2 * n)%nat -> bm_cols pol = nf -> bits_ok nf x -> length (ca_out c) = n ->
    (exists c', calc_clause_output_pruned S (Algo.bitwise R) x c (Z.of_nat n) (TA m ws pol) n_jobs tile = Ret c' /\
       forall j, (j < n)%nat -> outputs (ca_out c') j (satisfied_by_bits pol nf j x /\ nonempty_bits pol nf j)) /\
    (forall b e, (e <= n)%nat -> exists c', calc_clause_output S (Algo.bitwise R) x c (Z.of_nat b) (Z.of_nat e) (TA m ws pol) n_jobs tile = Ret c' /\
       forall j, (b <= j < e)%nat -> outputs (ca_out c') j (satisfied_by_bits pol nf j x)).
  Proof.
    intros Hm Hp Hr Hc (Hx1 & Hx2 & Hx3) El. apply gen_outputs; [| |done].
    - intros j B Hj HB. cbn [a_clause Algo.bitwise ta_pol]. rewrite (bw_clause_spec B x pol j); [|done|done|done|congruence|lia|done].
      eexists. split; [done|]. rewrite Hx1. by apply satisfied_bits_iff.
    - intros j B Hj HB. cbn [a_clause_pruned Algo.bitwise ta_pol]. rewrite (bwp_clause_spec B x pol j); [|done|done|done|congruence|lia|done].
      eexists. split; [done|]. rewrite Hx1, andb_true_iff, satisfied_bits_iff, nonempty_bits_iff; done.
  Qed.
End Outputs.

(** ** Parameter sets made by the argument factories can be used to create estimators *)
Lemma clf_accept_b_iff a : clf_accept_b a (if ca_boost a then 1 else 0) = true <-> clf_acceptable a.
Proof. rewrite clf_accept_iff. destruct (ca_boost a); tauto. Qed.
Lemma reg_accept_b_iff a : reg_accept_b a (if ra_boost a then 1 else 0) = true <-> reg_acceptable a.
Proof. rewrite reg_accept_iff. destruct (ra_boost a); tauto. Qed.
Lemma clf_factory_iff hw rd u : clf_typed u ->
  (clf_acceptable u /\ exists p, make_classifier_params_from_args hw rd u = Ret (Right p) /\ clf_created (clf_norm hw rd u) p) \/
  (~ clf_acceptable u /\ make_classifier_params_from_args hw rd u = Ret (Left S_BAD_JSON)).
Proof.
  intros Ht. rewrite clf_args_factory. pose proof (clf_accept_b_iff u) as H.
  destruct (clf_accept_b u _); [left|right]; split; try (by apply H); try (by intros ?%H); [|done].
  assert (clf_acceptable u) as Ha by by apply H.
  eexists. split; [done|]. constructor.
  - by apply clf_norm_valid.
  - eapply clf_norm_has; [apply clf_args_raw|]. by destruct (ca_boost u).
  - intros z. unfold P_number_of_labels, at_int, p_at. rewrite norm_params_lookup by done.
    unfold clf_args_params. by rewrite !lookup_insert_ne by done.
Qed.
Lemma reg_factory_iff hw rd u : reg_typed u ->
  (reg_acceptable u /\ exists p, make_regressor_params_from_args hw rd u = Ret (Right p) /\ reg_created (reg_norm hw rd u) p) \/
  (~ reg_acceptable u /\ make_regressor_params_from_args hw rd u = Ret (Left S_BAD_JSON)).
Proof.
  intros Ht. rewrite reg_args_factory. pose proof (reg_accept_b_iff u) as H.
  destruct (reg_accept_b u _); [left|right]; split; try (by apply H); try (by intros ?%H); [|done].
  assert (reg_acceptable u) as Ha by by apply H.
  eexists. split; [done|]. constructor.
  - by apply reg_norm_valid.
  - eapply reg_norm_has; [apply reg_args_raw|]. by destruct (ra_boost u).
Qed.
Lemma clf_factory_created hw rd u p : clf_typed u -> make_classifier_params_from_args hw rd u = Ret (Right p) -> clf_created (clf_norm hw rd u) p.
Proof. intros Ht E. destruct (clf_factory_iff hw rd u Ht) as [(_ & p' & E' & H)|[_ E']]; rewrite E in E'; [|done]. by injection E' as ->. Qed.
Lemma reg_factory_created hw rd u p : reg_typed u -> make_regressor_params_from_args hw rd u = Ret (Right p) -> reg_created (reg_norm hw rd u) p.
Proof. intros Ht E. destruct (reg_factory_iff hw rd u Ht) as [(_ & p' & E' & H)|[_ E']]; rewrite E in E'; [|done]. by injection E' as ->. Qed.

(** every user value is preserved *)
Lemma clf_factory_preserves hw rd u p : clf_typed u -> make_classifier_params_from_args hw rd u = Ret (Right p) ->
  (forall k, k <> "n_jobs"%string -> k <> "random_state"%string -> p !! k = clf_args_params u !! k) /\
  (1 <= ca_n_jobs u -> p !! "n_jobs"%string = Some (PInt (ca_n_jobs u))) /\
  (exists n, 1 <= n <= int_max /\ p !! "n_jobs"%string = Some (PInt n)) /\
  (forall z, ca_seed u = Some z -> p !! "random_state"%string = Some (PSeed z)) /\
  (exists z, 0 <= z < 4294967296 /\ p !! "random_state"%string = Some (PSeed z)).
Proof.
  intros Ht E. pose proof (clf_factory_created _ _ _ _ Ht E) as Hc. rewrite clf_args_factory in E.
  destruct (clf_accept_b u _); [|done]. injection E as <-. split; [intros; by apply norm_params_lookup|].
  pose proof (cc_has _ _ Hc) as []. pose proof (cc_valid _ _ Hc) as [Hty _ Hj]. destruct Hty.
  unfold P_n_jobs, P_random_state, at_int, at_seed, p_at in *.
  set (p := norm_params _ _ _ _ _) in *.
  assert (p !! "n_jobs"%string = Some (PInt (norm_jobs hw (ca_n_jobs u)))) as Ej.
  { destruct (p !! "n_jobs"%string) as [v|]; [|done]. cbn in ch_njobs. destruct v; try done. by injection ch_njobs as ->. }
  assert (exists z, norm_seed rd (ca_seed u) = Some z /\ p !! "random_state"%string = Some (PSeed z)) as (z & E1 & E2).
  { destruct ch_seed as (z & E1 & E2). exists z. split; [exact E1|]. destruct (p !! "random_state"%string) as [v|]; [|done]. cbn in E2. destruct v; try done. by injection E2 as ->. }
  split; [|split; [|split]].
  - intros H1. rewrite Ej. unfold norm_jobs. destruct (Z.eqb_spec (ca_n_jobs u) (-1)); [lia|done].
  - exists (norm_jobs hw (ca_n_jobs u)). split; [|done]. split; [exact Hj|]. apply ct_njobs.
  - intros z' Ez. rewrite E2. rewrite Ez in E1. cbn in E1. by injection E1 as ->.
  - exists z. split; [|done]. cbn in ct_seed. rewrite E1 in ct_seed. exact ct_seed.
Qed.
Lemma reg_factory_preserves hw rd u p : reg_typed u -> make_regressor_params_from_args hw rd u = Ret (Right p) ->
  (forall k, k <> "n_jobs"%string -> k <> "random_state"%string -> p !! k = reg_args_params u !! k) /\
  (1 <= ra_n_jobs u -> p !! "n_jobs"%string = Some (PInt (ra_n_jobs u))) /\
  (exists n, 1 <= n <= int_max /\ p !! "n_jobs"%string = Some (PInt n)) /\
  (forall z, ra_seed u = Some z -> p !! "random_state"%string = Some (PSeed z)) /\
  (exists z, 0 <= z < 4294967296 /\ p !! "random_state"%string = Some (PSeed z)).
Proof.
  intros Ht E. pose proof (reg_factory_created _ _ _ _ Ht E) as Hc. rewrite reg_args_factory in E.
  destruct (reg_accept_b u _); [|done]. injection E as <-. split; [intros; by apply norm_params_lookup|].
  pose proof (rc_has _ _ Hc) as []. pose proof (rc_valid _ _ Hc) as [Hty _ Hj]. destruct Hty.
  unfold P_n_jobs, P_random_state, at_int, at_seed, p_at in *.
  set (p := norm_params _ _ _ _ _) in *.
  assert (p !! "n_jobs"%string = Some (PInt (norm_jobs hw (ra_n_jobs u)))) as Ej.
  { destruct (p !! "n_jobs"%string) as [v|]; [|done]. cbn in rh_njobs. destruct v; try done. by injection rh_njobs as ->. }
  assert (exists z, norm_seed rd (ra_seed u) = Some z /\ p !! "random_state"%string = Some (PSeed z)) as (z & E1 & E2).
  { destruct rh_seed as (z & E1 & E2). exists z. split; [exact E1|]. destruct (p !! "random_state"%string) as [v|]; [|done]. cbn in E2. destruct v; try done. by injection E2 as ->. }
  split; [|split; [|split]].
  - intros H1. rewrite Ej. unfold norm_jobs. destruct (Z.eqb_spec (ra_n_jobs u) (-1)); [lia|done].
  - exists (norm_jobs hw (ra_n_jobs u)). split; [|done]. split; [exact Hj|]. apply rt_njobs.
  - intros z' Ez. rewrite E2. rewrite Ez in E1. cbn in E1. by injection E1 as ->.
  - exists z. split; [|done]. cbn in rt_seed. rewrite E1 in rt_seed. exact rt_seed.
Qed.

(** same user arguments with a seed, on two machines: parameter sets differ at most in the number of threads *)
Lemma clf_same_args hw1 rd1 hw2 rd2 u p1 p2 z : ca_seed u = Some z ->
  make_classifier_params_from_args hw1 rd1 u = Ret (Right p1) -> make_classifier_params_from_args hw2 rd2 u = Ret (Right p2) -> same_but_jobs p1 p2.
Proof.
  rewrite !clf_args_factory. destruct (clf_accept_b u _); [|done]. intros Ez [= <-] [= <-] k H1 H2. unfold norm_params. rewrite Ez.
  destruct (ca_n_jobs u =? -1); [|done]. by rewrite !lookup_insert_ne.
Qed.
Lemma reg_same_args hw1 rd1 hw2 rd2 u p1 p2 z : ra_seed u = Some z ->
  make_regressor_params_from_args hw1 rd1 u = Ret (Right p1) -> make_regressor_params_from_args hw2 rd2 u = Ret (Right p2) -> same_but_jobs p1 p2.
Proof.
  rewrite !reg_args_factory. destruct (reg_accept_b u _); [|done]. intros Ez [= <-] [= <-] k H1 H2. unfold norm_params. rewrite Ez.
  destruct (ra_n_jobs u =? -1); [|done]. by rewrite !lookup_insert_ne.
Qed.

(** ** Decision tables (C08, C22) *)
(** answer of a prediction call on an estimator that is [fitted] or not, with an argument that is [ok] or not *)
Definition read_table {T} (fitted ok : Prop) (r : either T) : Prop :=
  match r with
  | Left S_NOT_FITTED_ERROR => ~ fitted
  | Left S_VALUE_ERROR => fitted /\ ~ ok
  | Left _ => False
  | Right _ => fitted /\ ok
  end.
(** answer of a training call, and its effect on the estimator *)
Definition train_table {E} (ok : Prop) (e : E) (r : status * E) : Prop :=
  (r.1 = S_OK /\ ok) \/ (r.1 = S_VALUE_ERROR /\ ~ ok /\ r.2 = e).

Lemma clf_ok_dec (rs : list clf_res) : CRStatus S_OK ∈ rs \/ CRStatus S_OK ∉ rs.
Proof.
  induction rs as [|r rs [H|H]]; [right; apply not_elem_of_nil|left; by right|].
  assert (r = CRStatus S_OK \/ r <> CRStatus S_OK) as [->|Hn]; [|left; left|right; rewrite not_elem_of_cons; done].
  destruct r as [st| | | | |]; try (right; done). destruct st; (left; done) || (right; done).
Qed.
Lemma reg_ok_dec (rs : list reg_res) : RRStatus S_OK ∈ rs \/ RRStatus S_OK ∉ rs.
Proof.
  induction rs as [|r rs [H|H]]; [right; apply not_elem_of_nil|left; by right|].
  assert (r = RRStatus S_OK \/ r <> RRStatus S_OK) as [->|Hn]; [|left; left|right; rewrite not_elem_of_cons; done].
  destruct r as [st| |]; try (right; done). destruct st; (left; done) || (right; done).
Qed.

Section Tables.
  Context {R : rnd} (g_ok : eG R -> Prop) (f_ok : eF R -> Prop) (HR : rnd_ok R g_ok f_ok).
  Context (S : sch) (HS : sch_ok S).
  Context (A : algo R) (vw : aview A) (HA : tsetlini_algo R A vw).
  Notation est := (est (a_pol A) (eS S) (eG R) (eF R)).
  (** number of features / labels an estimator was last fitted with *)
  Definition clf_features (os : list (clf_op A)) (rs : list clf_res) (nf : nat) : Prop := exists L, clf_dims_of os rs = Some (L, nf).
  Definition clf_labels (os : list (clf_op A)) (rs : list clf_res) (L : nat) : Prop := exists nf, clf_dims_of os rs = Some (L, nf).

  Section Clf.
    Context (a : clf_args) (p : params) (os : list (clf_op A)) (rs : list clf_res) (e : est).
    Context (Hc : clf_created a p) (Hh : clf_history S A vw p os rs e).
    Lemma fitted_dims : CRStatus S_OK ∈ rs <-> exists L nf, clf_dims_of os rs = Some (L, nf).
    Proof.
      pose proof (clf_dims_none S A vw p os rs e Hh) as H. destruct (clf_dims_of os rs) as [[L nf]|].
      - split; [by eauto|]. intros _. destruct (clf_ok_dec rs) as [|Hn]; [done|]. apply H in Hn. done.
      - split; [|by intros (? & ? & ?)]. intros Hin. by apply H in Hin.
    Qed.
    Lemma clf_table {T} (ok : nat -> Prop) (r : either T) :
      match clf_dims_of os rs with
      | None => r = Left S_NOT_FITTED_ERROR
      | Some (L, nf) => (ok nf /\ exists v, r = Right v) \/ (~ ok nf /\ r = Left S_VALUE_ERROR)
      end -> read_table (CRStatus S_OK ∈ rs) (forall nf, clf_features os rs nf -> ok nf) r.
    Proof.
      intros H. pose proof fitted_dims as Hf. unfold clf_features in *. destruct (clf_dims_of os rs) as [[L nf]|].
      - assert (CRStatus S_OK ∈ rs) as Hin by (apply Hf; eauto).
        destruct H as [[Hok [v ->]]|[Hno ->]]; cbn; split; try done.
        + intros nf' [L' [= <- <-]]. done.
        + intros Hall. apply Hno, Hall. by exists L.
      - rewrite H. cbn. intros Hin. apply Hf in Hin as (? & ? & ?). done.
    Qed.
    Lemma clf_predict1_table x : v_phys vw x -> exists r e', clf_predict1 S A e x = Ret (r, e') /\
      read_table (CRStatus S_OK ∈ rs) (forall nf, clf_features os rs nf -> v_ok vw nf x) r.
    Proof.
      intros Hx. destruct (clf_predict1_answer g_ok f_ok HR S HS A vw HA a p os rs e Hc Hh x Hx) as (r & e' & E & H). exists r, e'. split; [done|].
      apply (clf_table (fun nf => v_ok vw nf x)). cbn in H. destruct (clf_dims_of os rs) as [[L nf]|]; [|by injection H].
      destruct H as [[? [= ->]]|[? [= ->]]]; eauto.
    Qed.
    Lemma clf_decision1_table x : v_phys vw x -> exists r e', clf_decision1 S A e x = Ret (r, e') /\
      read_table (CRStatus S_OK ∈ rs) (forall nf, clf_features os rs nf -> v_ok vw nf x) r.
    Proof.
      intros Hx. destruct (clf_decision1_answer g_ok f_ok HR S HS A vw HA a p os rs e Hc Hh x Hx) as (r & e' & E & H). exists r, e'. split; [done|].
      apply (clf_table (fun nf => v_ok vw nf x)). cbn in H. destruct (clf_dims_of os rs) as [[L nf]|]; [|by injection H].
      destruct H as [[? [= ->]]|[? [= ->]]]; eauto.
    Qed.
    Lemma clf_predict_table X : Forall (v_phys vw) X -> exists r e', clf_predict S A e X = Ret (r, e') /\
      read_table (CRStatus S_OK ∈ rs) (forall nf, clf_features os rs nf -> X <> [] /\ Forall (v_ok vw nf) X) r.
    Proof.
      intros Hx. destruct (clf_predict_answer g_ok f_ok HR S HS A vw HA a p os rs e Hc Hh X Hx) as (r & e' & E & H). exists r, e'. split; [done|].
      apply (clf_table (fun nf => X <> [] /\ Forall (v_ok vw nf) X)). cbn in H. destruct (clf_dims_of os rs) as [[L nf]|]; [|by injection H].
      destruct H as [[? [= ->]]|[? [= ->]]]; eauto.
    Qed.
    Lemma clf_decision_table X : Forall (v_phys vw) X -> exists r e', clf_decision S A e X = Ret (r, e') /\
      read_table (CRStatus S_OK ∈ rs) (forall nf, clf_features os rs nf -> X <> [] /\ Forall (v_ok vw nf) X) r.
    Proof.
      intros Hx. destruct (clf_decision_answer g_ok f_ok HR S HS A vw HA a p os rs e Hc Hh X Hx) as (r & e' & E & H). exists r, e'. split; [done|].
      apply (clf_table (fun nf => X <> [] /\ Forall (v_ok vw nf) X)). cbn in H. destruct (clf_dims_of os rs) as [[L nf]|]; [|by injection H].
      destruct H as [[? [= ->]]|[? [= ->]]]; eauto.
    Qed.
    Lemma clf_fit_table X y ml n st e' : Forall (v_phys vw) X -> clf_fit S A e X y ml n = Ret (st, e') ->
      train_table (X <> [] /\ length y = length X /\ (exists nf, Forall (v_ok vw nf) X) /\ Forall (fun v => 0 <= v) y) e (st, e').
    Proof.
      intros HX E. destruct (clf_answers g_ok f_ok HR S HS A vw HA a p os rs e (CFit A X y ml n) (CRStatus st) e' Hc Hh HX) as [H1 H2].
      { cbn [clf_step]. by rewrite E. }
      cbn in H1, H2. unfold train_table. cbn [fst snd]. destruct H1 as [[H [= ->]]|[H [= ->]]].
      - left. split; [done|]. destruct H as [(nf & (Hne & Hok) & Hl) Hy]. eauto.
      - right. split; [done|]. split; [|by destruct H2]. intros (Hne & Hl & (nf & Hok) & Hy). apply H. split; [|done]. exists nf. done.
    Qed.
    Lemma clf_partial_table X y ml n st e' : Forall (v_phys vw) X -> clf_partial_fit S A e X y ml n = Ret (st, e') ->
      train_table (X <> [] /\ length y = length X /\
        match clf_dims_of os rs with
        | None => (exists nf, Forall (v_ok vw nf) X) /\ Forall (fun v => 0 <= v) y
        | Some (L, nf) => Forall (v_ok vw nf) X /\ Forall (fun v => 0 <= v < Z.of_nat L) y
        end) e (st, e').
    Proof.
      intros HX E. destruct (clf_answers g_ok f_ok HR S HS A vw HA a p os rs e (CPartialFit A X y ml n) (CRStatus st) e' Hc Hh HX) as [H1 H2].
      { cbn [clf_step]. by rewrite E. }
      cbn in H1, H2. unfold train_table. cbn [fst snd]. destruct (clf_dims_of os rs) as [[L nf]|]; destruct H1 as [[H [= ->]]|[H [= ->]]].
      - left. split; [done|]. destruct H as [[(Hne & Hok) Hl] Hy]. eauto.
      - right. split; [done|]. split; [|by destruct H2]. intros (Hne & Hl & Hok & Hy). apply H. done.
      - left. split; [done|]. destruct H as [(nf & (Hne & Hok) & Hl) Hy]. eauto 10.
      - right. split; [done|]. split; [|by destruct H2]. intros (Hne & Hl & (nf & Hok) & Hy). apply H. split; [|done]. exists nf. done.
    Qed.
  End Clf.
  Section Reg.
    Context (a : reg_args) (p : params) (os : list (reg_op A)) (rs : list reg_res) (e : est).
    Context (Hc : reg_created a p) (Hh : reg_history S A vw p os rs e).
    Lemma rfitted_dims : RRStatus S_OK ∈ rs <-> exists nf, reg_dims_of os rs = Some nf.
    Proof.
      pose proof (reg_dims_none S A vw p os rs e Hh) as H. destruct (reg_dims_of os rs) as [nf|].
      - split; [by eauto|]. intros _. destruct (reg_ok_dec rs) as [|Hn]; [done|]. apply H in Hn. done.
      - split; [|by intros (? & ?)]. intros Hin. by apply H in Hin.
    Qed.
    Lemma reg_table {T} (ok : nat -> Prop) (r : either T) :
      match reg_dims_of os rs with
      | None => r = Left S_NOT_FITTED_ERROR
      | Some nf => (ok nf /\ exists v, r = Right v) \/ (~ ok nf /\ r = Left S_VALUE_ERROR)
      end -> read_table (RRStatus S_OK ∈ rs) (forall nf, reg_dims_of os rs = Some nf -> ok nf) r.
    Proof.
      intros H. pose proof rfitted_dims as Hf. destruct (reg_dims_of os rs) as [nf|].
      - assert (RRStatus S_OK ∈ rs) as Hin by (apply Hf; eauto).
        destruct H as [[Hok [v ->]]|[Hno ->]]; cbn; split; try done.
        + intros nf' [= <-]. done.
        + intros Hall. by apply Hno, Hall.
      - rewrite H. cbn. intros Hin. apply Hf in Hin as (? & ?). done.
    Qed.
    Lemma reg_predict1_table x : v_phys vw x -> exists r e', reg_predict1 S A e x = Ret (r, e') /\
      read_table (RRStatus S_OK ∈ rs) (forall nf, reg_dims_of os rs = Some nf -> v_ok vw nf x) r.
    Proof.
      intros Hx. destruct (reg_predict1_answer g_ok f_ok HR S HS A vw HA a p os rs e Hc Hh x Hx) as (r & e' & E & H). exists r, e'. split; [done|].
      apply (reg_table (fun nf => v_ok vw nf x)). cbn in H. destruct (reg_dims_of os rs) as [nf|]; [|by injection H].
      destruct H as [[? [= ->]]|[? [= ->]]]; eauto.
    Qed.
    Lemma reg_predict_table X : Forall (v_phys vw) X -> exists r e', reg_predict S A e X = Ret (r, e') /\
      read_table (RRStatus S_OK ∈ rs) (forall nf, reg_dims_of os rs = Some nf -> X <> [] /\ Forall (v_ok vw nf) X) r.
    Proof.
      intros Hx. destruct (reg_predict_answer g_ok f_ok HR S HS A vw HA a p os rs e Hc Hh X Hx) as (r & e' & E & H). exists r, e'. split; [done|].
      apply (reg_table (fun nf => X <> [] /\ Forall (v_ok vw nf) X)). cbn in H. destruct (reg_dims_of os rs) as [nf|]; [|by injection H].
      destruct H as [[? [= ->]]|[? [= ->]]]; eauto.
    Qed.
    Lemma reg_fit_table X y n st e' : Forall (v_phys vw) X -> reg_fit S A e X y n = Ret (st, e') ->
      train_table (X <> [] /\ length y = length X /\ (exists nf, Forall (v_ok vw nf) X) /\ Forall (fun v => 0 <= v <= ra_threshold a) y) e (st, e').
    Proof.
      intros HX E. destruct (reg_answers g_ok f_ok HR S HS A vw HA a p os rs e (RFit A X y n) (RRStatus st) e' Hc Hh HX) as [H1 H2].
      { cbn [reg_step]. by rewrite E. }
      cbn in H1, H2. unfold train_table. cbn [fst snd]. destruct H1 as [[H [= ->]]|[H [= ->]]].
      - left. split; [done|]. destruct H as [(nf & (Hne & Hok) & Hl) Hy]. eauto.
      - right. split; [done|]. split; [|by destruct H2]. intros (Hne & Hl & (nf & Hok) & Hy). apply H. split; [|done]. exists nf. done.
    Qed.
    Lemma reg_partial_table X y n st e' : Forall (v_phys vw) X -> reg_partial_fit S A e X y n = Ret (st, e') ->
      train_table (X <> [] /\ length y = length X /\
        match reg_dims_of os rs with None => exists nf, Forall (v_ok vw nf) X | Some nf => Forall (v_ok vw nf) X end /\
        Forall (fun v => 0 <= v <= ra_threshold a) y) e (st, e').
    Proof.
      intros HX E. destruct (reg_answers g_ok f_ok HR S HS A vw HA a p os rs e (RPartialFit A X y n) (RRStatus st) e' Hc Hh HX) as [H1 H2].
      { cbn [reg_step]. by rewrite E. }
      cbn in H1, H2. unfold train_table. cbn [fst snd]. destruct (reg_dims_of os rs) as [nf|]; destruct H1 as [[H [= ->]]|[H [= ->]]].
      - left. split; [done|]. destruct H as [[(Hne & Hok) Hl] Hy]. eauto.
      - right. split; [done|]. split; [|by destruct H2]. intros (Hne & Hl & Hok & Hy). apply H. done.
      - left. split; [done|]. destruct H as [(nf & (Hne & Hok) & Hl) Hy]. eauto 10.
      - right. split; [done|]. split; [|by destruct H2]. intros (Hne & Hl & (nf & Hok) & Hy). apply H. split; [|done]. exists nf. done.
    Qed.
  End Reg.
End Tables.

(** ** Classic and bitwise estimators holding the same model (C03) *)
Section Agree.
  Context {R : rnd} (g_ok : eG R -> Prop) (f_ok : eF R -> Prop) (HR : rnd_ok R g_ok f_ok).
  Context (S1 : sch) (HS1 : sch_ok S1) (S2 : sch) (HS2 : sch_ok S2).
  Lemma clf_agree a1 p1 os1 rs1 e1 a2 p2 os2 rs2 e2 L nf x b :
    clf_created a1 p1 -> clf_created a2 p2 -> ca_clauses a2 = ca_clauses a1 -> ca_threshold a2 = ca_threshold a1 ->
    clf_history S1 (classic R) (cl_view R) p1 os1 rs1 e1 -> clf_history S2 (Algo.bitwise R) (bw_view R) p2 os2 rs2 e2 ->
    clf_dims_of os1 rs1 = Some (L, nf) -> clf_dims_of os2 rs2 = Some (L, nf) ->
    same_model (L * Z.to_nat (ca_clauses a1 / 2)) nf (e_ta e1) (e_ta e2) -> dense_ok nf x -> bits_ok nf b -> same_sample nf x b ->
    exists v y e1' e2' e1'' e2'', clf_decision1 S1 (classic R) e1 x = Ret (Right v, e1') /\ clf_decision1 S2 (Algo.bitwise R) e2 b = Ret (Right v, e2') /\
      clf_predict1 S1 (classic R) e1 x = Ret (Right y, e1'') /\ clf_predict1 S2 (Algo.bitwise R) e2 b = Ret (Right y, e2'').
  Proof.
    intros Hc1 Hc2 Ec ET Hh1 Hh2 D1 D2 Hm Hx Hb Hs.
    assert (clf_votes (bw_view R) a2 L nf (e_ta e2) b = clf_votes (cl_view R) a1 L nf (e_ta e1) x) as Ev.
    { rewrite <- (votes_agree a1 L nf (e_ta e1) (e_ta e2) x b Hm Hs). unfold clf_votes, clf_opl. by rewrite Ec, ET. }
    destruct (clf_decision1_answer g_ok f_ok HR S1 HS1 (classic R) (cl_view R) (algo_classic R) a1 p1 os1 rs1 e1 Hc1 Hh1 x Logic.I) as (r1 & e1' & E1 & H1).
    destruct (clf_decision1_answer g_ok f_ok HR S2 HS2 _ (bw_view R) (algo_bitwise R) a2 p2 os2 rs2 e2 Hc2 Hh2 b (proj1 (proj2 Hb))) as (r2 & e2' & E2 & H2).
    destruct (clf_predict1_answer g_ok f_ok HR S1 HS1 (classic R) (cl_view R) (algo_classic R) a1 p1 os1 rs1 e1 Hc1 Hh1 x Logic.I) as (r3 & e1'' & E3 & H3).
    destruct (clf_predict1_answer g_ok f_ok HR S2 HS2 _ (bw_view R) (algo_bitwise R) a2 p2 os2 rs2 e2 Hc2 Hh2 b (proj1 (proj2 Hb))) as (r4 & e2'' & E4 & H4).
    rewrite D1 in H1, H3. rewrite D2 in H2, H4. cbn in H1, H2, H3, H4.
    destruct H1 as [[_ [= ->]]|[[] _]]; [|done]. destruct H2 as [[_ [= ->]]|[[] _]]; [|done].
    destruct H3 as [[_ [= ->]]|[[] _]]; [|done]. destruct H4 as [[_ [= ->]]|[[] _]]; [|done].
    exists (clf_votes (cl_view R) a1 L nf (e_ta e1) x), (clf_label (cl_view R) a1 L nf (e_ta e1) x), e1', e2', e1'', e2''.
    split; [exact E1|]. split; [exact (eq_trans E2 (f_equal (fun w => Ret (Right w, e2')) Ev))|]. split; [exact E3|].
    exact (eq_trans E4 (f_equal (fun w => Ret (Right (Z.of_nat (argmax w)), e2'')) Ev)).
  Qed.
  Lemma reg_agree a1 p1 os1 rs1 e1 a2 p2 os2 rs2 e2 nf x b :
    reg_created a1 p1 -> reg_created a2 p2 -> ra_clauses a2 = ra_clauses a1 -> ra_threshold a2 = ra_threshold a1 ->
    reg_history S1 (classic R) (cl_view R) p1 os1 rs1 e1 -> reg_history S2 (Algo.bitwise R) (bw_view R) p2 os2 rs2 e2 ->
    reg_dims_of os1 rs1 = Some nf -> reg_dims_of os2 rs2 = Some nf ->
    same_model (Z.to_nat (ra_clauses a1 / 2)) nf (e_ta e1) (e_ta e2) -> dense_ok nf x -> bits_ok nf b -> same_sample nf x b ->
    exists v e1' e2', reg_predict1 S1 (classic R) e1 x = Ret (Right v, e1') /\ reg_predict1 S2 (Algo.bitwise R) e2 b = Ret (Right v, e2').
  Proof.
    intros Hc1 Hc2 Ec ET Hh1 Hh2 D1 D2 Hm Hx Hb Hs.
    assert (reg_response (bw_view R) a2 nf (e_ta e2) b = reg_response (cl_view R) a1 nf (e_ta e1) x) as Ev.
    { rewrite <- (response_agree a1 nf (e_ta e1) (e_ta e2) x b Hm Hs). unfold reg_response, reg_n. by rewrite Ec, ET. }
    destruct (reg_predict1_answer g_ok f_ok HR S1 HS1 (classic R) (cl_view R) (algo_classic R) a1 p1 os1 rs1 e1 Hc1 Hh1 x Logic.I) as (r3 & e1'' & E3 & H3).
    destruct (reg_predict1_answer g_ok f_ok HR S2 HS2 _ (bw_view R) (algo_bitwise R) a2 p2 os2 rs2 e2 Hc2 Hh2 b (proj1 (proj2 Hb))) as (r4 & e2'' & E4 & H4).
    rewrite D1 in H3. rewrite D2 in H4. cbn in H3, H4.
    destruct H3 as [[_ [= ->]]|[[] _]]; [|done]. destruct H4 as [[_ [= ->]]|[[] _]]; [|done].
    exists (reg_response (cl_view R) a1 nf (e_ta e1) x), e1'', e2''.
    split; [exact E3|]. exact (eq_trans E4 (f_equal (fun w => Ret (Right w, e2'')) Ev)).
  Qed.
End Agree.

(** ** Readings of the view *)
Lemma fires_pruned_states (R : rnd) nf (s : tastate (a_pol (classic R))) x j : dense_ok nf x ->
  fires_pruned (cl_view R) nf s x j = true <-> satisfied_by_states (ta_matrix s) nf j x /\ nonempty_states (ta_matrix s) nf j.
Proof.
  intros Hx. rewrite <- (satisfied_states_iff _ _ _ _ Hx), <- nonempty_states_iff. unfold fires_pruned, fires. cbn [cl_view v_inc v_incn v_x].
  apply andb_true_iff.
Qed.
Lemma fires_pruned_bits (R : rnd) nf (s : tastate (a_pol (Algo.bitwise R))) x j :
  fires_pruned (bw_view R) nf s x j = true <-> satisfied_by_bits (ta_pol s) nf j x /\ nonempty_bits (ta_pol s) nf j.
Proof.
  rewrite <- satisfied_bits_iff, <- nonempty_bits_iff. unfold fires_pruned, fires. cbn [bw_view v_inc v_incn v_x].
  apply andb_true_iff.
Qed.
Lemma fires_states (R : rnd) nf (s : tastate (a_pol (classic R))) x j : dense_ok nf x ->
  fires (cl_view R) nf s x j = true <-> satisfied_by_states (ta_matrix s) nf j x.
Proof. intros Hx. by rewrite <- (satisfied_states_iff _ _ _ _ Hx). Qed.
Lemma fires_bits (R : rnd) nf (s : tastate (a_pol (Algo.bitwise R))) x j :
  fires (bw_view R) nf s x j = true <-> satisfied_by_bits (ta_pol s) nf j x.
Proof. by rewrite <- satisfied_bits_iff. Qed.
Lemma valid_samples (R : rnd) nf :
  (forall x, v_ok (cl_view R) nf x <-> length x = nf /\ Forall (fun v => v = 0 \/ v = 1) x) /\
  (forall b, v_phys (bw_view R) b -> (v_ok (bw_view R) nf b <-> bv_len b = nf /\ forall q, (nf <= q)%nat -> bv_bit 64 b q = false)).
Proof. split; [done|]. intros b Hb. cbn in *. unfold bits_ok. tauto. Qed.
