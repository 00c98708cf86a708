(** * Effects of one training step, clause by clause, and other lemmas behind the training properties. *)
From Verif Require Export PropFacts.
From Coq Require Import Permutation.
From stdpp Require Import list.
Local Open Scope Z_scope.

Section Step.
  Context {R : rnd} (g_ok : eG R -> Prop) (f_ok : eF R -> Prop) (HR : rnd_ok R g_ok f_ok).
  Context (S : sch) (HS : sch_ok S).
  Context (A : algo R) (vw : aview A).
  Notation est := (est (a_pol A) (eS S) (eG R) (eF R)).
  (** label picked by draw [r] as the opposite of label [t] *)
  Definition opposite (t L : nat) (r : Z) : nat := Z.to_nat ((Z.of_nat t + 1 + r mod (Z.of_nat L - 1)) mod Z.of_nat L).
  Section One.
    Context (a : clf_args) (p : params) (os : list (clf_op A)) (rs : list clf_res) (e e' : est) (L nf : nat) (x : a_smp A) (t ml : Z).
    Context (Hw : trains_well R (ca_states a) A vw) (Hc : clf_created a p) (Hh : clf_history S A vw p os rs e).
    Context (Hd : clf_dims_of os rs = Some (L, nf)) (Hx : v_phys vw x).
    Context (E : clf_partial_fit S A e [x] [t] ml 1 = Ret (S_OK, e')).
    Notation opl := (Z.to_nat (ca_clauses a / 2)).
    Notation s := (e_ta e).
    Notation s' := (e_ta e').
    Notation o := (opposite (Z.to_nat t) L (g_next R (e_igen e)).1).
    Notation draw := (f_draw R (e_fgen e)).
    Notation T := (ca_threshold a).
    Notation rule := (clause_rule vw (toss_count (ca_s a) nf) (ca_states a) (ca_weighted a) (ca_boost a) (ca_max_weight a) nf x).

    Lemma one_update : 0 <= t < Z.of_nat L /\ (o < L)%nat /\ o <> Z.to_nat t /\
      clf_update vw a L nf draw x (Z.to_nat t) o s s'.
    Proof.
      destruct (clf_one_update g_ok f_ok HR S HS A vw a p os rs e e' L nf x t ml Hw Hc Hh Hd Hx E) as (tn & o' & -> & H1 & H2 & H3 & H4 & H5).
      rewrite !Nat2Z.id. assert (opposite tn L (g_next R (e_igen e)).1 = o') as ->.
      { unfold opposite. rewrite <- H4. apply Nat2Z.id. }
      split; [lia|done].
    Qed.
    Lemma rule_0 j b : rule j 0 b s s' -> clause_untouched vw nf j s s'.
    Proof. done. Qed.
    (** C16 *)
    Lemma one_locality l : (l < L)%nat -> l <> Z.to_nat t -> l <> o ->
      forall j, (l * opl <= j < l * opl + opl)%nat -> clause_untouched vw nf j s s'.
    Proof.
      intros Hl H1 H2 j Hj. destruct one_update as (Ht & Ho & Hne & Hu).
      assert (j < L * opl)%nat as HjL. { assert (l * opl + opl <= L * opl)%nat by (change (l * opl + opl)%nat with (l * opl + 1 * opl)%nat || idtac; nia). lia. }
      specialize (Hu j HjL). unfold clf_feedback, feedback_to in Hu.
      rewrite decide_False in Hu by nia. rewrite decide_False in Hu by nia. by apply rule_0 in Hu.
    Qed.
    (** C19 *)
    Definition selected (d thr : float32) : Prop := f_gt d thr = false.
    Lemma one_target i : (i < opl)%nat -> let j := (Z.to_nat t * opl + i)%nat in
      (selected (draw i) (target_thr T (train_votes vw a nf s x (Z.to_nat t))) ->
        rule j (if Nat.even i then 1 else -1) (fires vw nf s x j) s s') /\
      (~ selected (draw i) (target_thr T (train_votes vw a nf s x (Z.to_nat t))) -> clause_untouched vw nf j s s').
    Proof.
      intros Hi j. destruct one_update as (Ht & Ho & Hne & Hu). specialize (Hu j). feed specialize Hu; [subst j; nia|].
      unfold clf_feedback, feedback_to in Hu. rewrite decide_True in Hu by (subst j; lia).
      replace (j - Z.to_nat t * opl)%nat with i in Hu by (subst j; lia).
      assert (Nat.even j = Nat.even i) as Ee.
      { subst j. rewrite Nat.even_add, Nat.even_mul. pose proof (cc_valid _ _ Hc) as Ha.
        destruct (clf_opl_facts a Ha) as (_ & _ & Ev & _). unfold clf_opl in Ev. rewrite Ev, orb_true_r. by destruct (Nat.even i). }
      rewrite Ee in Hu. unfold selected. destruct (f_gt _ _); [|done]. split; [done|]. intros _. by apply rule_0 in Hu.
    Qed.
    Lemma one_opposite i : (i < opl)%nat -> let j := (o * opl + i)%nat in
      (selected (draw (opl + i)%nat) (opposite_thr T (train_votes vw a nf s x o)) ->
        rule j (if Nat.even i then -1 else 1) (fires vw nf s x j) s s') /\
      (~ selected (draw (opl + i)%nat) (opposite_thr T (train_votes vw a nf s x o)) -> clause_untouched vw nf j s s').
    Proof.
      intros Hi j. destruct one_update as (Ht & Ho & Hne & Hu). specialize (Hu j). feed specialize Hu; [subst j; nia|].
      unfold clf_feedback, feedback_to in Hu. rewrite decide_False in Hu by (subst j; nia). rewrite decide_True in Hu by (subst j; lia).
      replace (j - o * opl)%nat with i in Hu by (subst j; lia).
      assert (Nat.even j = Nat.even i) as Ee.
      { subst j. rewrite Nat.even_add, Nat.even_mul. pose proof (cc_valid _ _ Hc) as Ha.
        destruct (clf_opl_facts a Ha) as (_ & _ & Ev & _). unfold clf_opl in Ev. rewrite Ev, orb_true_r. by destruct (Nat.even i). }
      rewrite Ee in Hu. unfold selected. destruct (f_gt _ _); [|done]. split; [done|]. intros _. by apply rule_0 in Hu.
    Qed.
    (** clauses given Type I (Type II) feedback *)
    Definition gets_type1 (j : nat) : Prop :=
      exists i, (i < opl)%nat /\
        ((Nat.even i = true /\ j = (Z.to_nat t * opl + i)%nat /\ selected (draw i) (target_thr T (train_votes vw a nf s x (Z.to_nat t)))) \/
         (Nat.even i = false /\ j = (o * opl + i)%nat /\ selected (draw (opl + i)%nat) (opposite_thr T (train_votes vw a nf s x o)))).
    Definition gets_type2 (j : nat) : Prop :=
      exists i, (i < opl)%nat /\
        ((Nat.even i = false /\ j = (Z.to_nat t * opl + i)%nat /\ selected (draw i) (target_thr T (train_votes vw a nf s x (Z.to_nat t)))) \/
         (Nat.even i = true /\ j = (o * opl + i)%nat /\ selected (draw (opl + i)%nat) (opposite_thr T (train_votes vw a nf s x o)))).
    Lemma gets_type1_rule j : gets_type1 j -> rule j 1 (fires vw nf s x j) s s'.
    Proof.
      intros (i & Hi & [(Ev & -> & Hs)|(Ev & -> & Hs)]).
      - pose proof (proj1 (one_target i Hi) Hs) as H. by rewrite Ev in H.
      - pose proof (proj1 (one_opposite i Hi) Hs) as H. by rewrite Ev in H.
    Qed.
    Lemma gets_type2_rule j : gets_type2 j -> rule j (-1) (fires vw nf s x j) s s'.
    Proof.
      intros (i & Hi & [(Ev & -> & Hs)|(Ev & -> & Hs)]).
      - pose proof (proj1 (one_target i Hi) Hs) as H. by rewrite Ev in H.
      - pose proof (proj1 (one_opposite i Hi) Hs) as H. by rewrite Ev in H.
    Qed.
    (** every other clause is untouched *)
    Lemma gets_none j : (j < L * opl)%nat -> ~ gets_type1 j -> ~ gets_type2 j -> clause_untouched vw nf j s s'.
    Proof.
      intros Hj H1 H2. destruct one_update as (Ht & Ho & Hne & Hu).
      assert (forall l i, (i < opl)%nat -> (l * opl <= l * opl + i < l * opl + opl)%nat) as Hin by (intros; lia).
      destruct (decide (Z.to_nat t * opl <= j < Z.to_nat t * opl + opl)%nat) as [Hjt|Hjt].
      - assert (exists i, (i < opl)%nat /\ j = (Z.to_nat t * opl + i)%nat) as (i & Hi & ->) by (exists (j - Z.to_nat t * opl)%nat; lia).
        apply (one_target i Hi). intros Hs. destruct (Nat.even i) eqn:Ev; [apply H1|apply H2]; exists i; auto.
      - destruct (decide (o * opl <= j < o * opl + opl)%nat) as [Hjo|Hjo].
        + assert (exists i, (i < opl)%nat /\ j = (o * opl + i)%nat) as (i & Hi & ->) by (exists (j - o * opl)%nat; lia).
          apply (one_opposite i Hi). intros Hs. destruct (Nat.even i) eqn:Ev; [apply H2|apply H1]; exists i; auto.
        + specialize (Hu j Hj). unfold clf_feedback, feedback_to in Hu.
          rewrite decide_False in Hu by lia. rewrite decide_False in Hu by lia. by apply rule_0 in Hu.
    Qed.
    (** C17 *)
    Lemma one_type1_fired j : gets_type1 j -> fires vw nf s x j = true ->
      exists tp tn : nat -> bool,
        toss_count (ca_s a) nf (Z.of_nat (how_many nf tp)) /\ toss_count (ca_s a) nf (Z.of_nat (how_many nf tn)) /\
        (forall k, (k < nf)%nat ->
          pos_state s' j k = type1_fired (ca_boost a) (ca_states a) (v_x vw x k) (tp k) (pos_state s j k) /\
          neg_state s' j k = type1_fired (ca_boost a) (ca_states a) (negb (v_x vw x k)) (tn k) (neg_state s j k)) /\
        weight_of (ta_weights s') j = weight_up (ca_weighted a) (ca_max_weight a) (weight_of (ta_weights s) j).
    Proof.
      intros Hj Hf. apply gets_type1_rule in Hj. rewrite Hf in Hj. destruct Hj as [(tp & tn & H1 & H2 & H3) H4]. exists tp, tn. done.
    Qed.
    Lemma one_type1_silent j : gets_type1 j -> fires vw nf s x j = false ->
      exists dp dn : nat -> nat,
        moves (toss_count (ca_s a) nf) (sum_below nf dp) /\ moves (toss_count (ca_s a) nf) (sum_below nf dn) /\
        (forall k, (k < nf)%nat ->
          pos_state s' j k = Nat.iter (dp k) (down (ca_states a)) (pos_state s j k) /\
          neg_state s' j k = Nat.iter (dn k) (down (ca_states a)) (neg_state s j k)) /\
        weight_of (ta_weights s') j = weight_of (ta_weights s) j.
    Proof.
      intros Hj Hf. apply gets_type1_rule in Hj. rewrite Hf in Hj. destruct Hj as [(dp & dn & H1 & H2 & H3) H4]. exists dp, dn. done.
    Qed.
    (** C18 *)
    Lemma one_type2 j : gets_type2 j ->
      (fires vw nf s x j = true ->
        (forall k, (k < nf)%nat ->
          pos_state s' j k = type2 (v_x vw x k) (pos_state s j k) /\
          neg_state s' j k = type2 (negb (v_x vw x k)) (neg_state s j k)) /\
        weight_of (ta_weights s') j = weight_down (weight_of (ta_weights s) j)) /\
      (fires vw nf s x j = false -> clause_untouched vw nf j s s').
    Proof. intros Hj. apply gets_type2_rule in Hj. split; intros Hf; rewrite Hf in Hj; exact Hj. Qed.
  End One.
  Section One'.
    Context (a : clf_args) (p : params) (os : list (clf_op A)) (rs : list clf_res) (e e' : est) (L nf : nat) (x : a_smp A) (t ml : Z).
    Context (Hw : trains_well R (ca_states a) A vw) (Hc : clf_created a p) (Hh : clf_history S A vw p os rs e).
    Context (Hd : clf_dims_of os rs = Some (L, nf)) (Hx : v_phys vw x).
    Context (E : clf_partial_fit S A e [x] [t] ml 1 = Ret (S_OK, e')).
    Notation s := (e_ta e).
    Notation s' := (e_ta e').
    Lemma one_type2_explicit j : gets_type2 a e L nf x t j ->
      (fires vw nf s x j = true ->
        (forall k, (k < nf)%nat ->
          pos_state s' j k = pos_state s j k + (if negb (v_x vw x k) && (pos_state s j k <? 0) then 1 else 0) /\
          neg_state s' j k = neg_state s j k + (if v_x vw x k && (neg_state s j k <? 0) then 1 else 0)) /\
        weight_of (ta_weights s') j = Z.max 0 (weight_of (ta_weights s) j - 1)) /\
      (fires vw nf s x j = false -> clause_untouched vw nf j s s').
    Proof.
      intros Hj. destruct (one_type2 a p os rs e e' L nf x t ml Hw Hc Hh Hd Hx E j Hj) as [H1 H2]. split; [|exact H2].
      intros Hf. destruct (H1 Hf) as [H3 H4]. split; [|].
      - intros k Hk. destruct (H3 k Hk) as [-> ->]. unfold type2. destruct (v_x vw x k); cbn [negb andb]; split; try lia; case_match; lia.
      - rewrite H4. unfold weight_down. destruct (Z.ltb_spec 0 (weight_of (ta_weights (e_ta e)) j)); lia.
    Qed.
    Lemma one_opposite_label : 0 <= t < Z.of_nat L /\ (opposite (Z.to_nat t) L (g_next R (e_igen e)).1 < L)%nat /\
      opposite (Z.to_nat t) L (g_next R (e_igen e)).1 <> Z.to_nat t.
    Proof. destruct (one_update a p os rs e e' L nf x t ml Hw Hc Hh Hd Hx E) as (? & ? & ? & _). done. Qed.
  End One'.
  (** the regressor touches only clauses it picked *)
  Lemma untouched_trans nf j (s1 s2 s3 : tastate (a_pol A)) : clause_untouched vw nf j s1 s2 -> clause_untouched vw nf j s2 s3 -> clause_untouched vw nf j s1 s3.
  Proof.
    intros [H1 W1] [H2 W2]. split; [|congruence]. intros k Hk. destruct (H1 k Hk) as (?&?&?&?), (H2 k Hk) as (?&?&?&?). repeat split; congruence.
  Qed.
  Lemma untouched_refl nf j (s1 : tastate (a_pol A)) : clause_untouched vw nf j s1 s1.
  Proof. done. Qed.
  Lemma picks_others a nf x kind fire js s s' i : reg_picks vw a nf x kind fire js s s' -> (i < Z.to_nat (ra_clauses a / 2))%nat -> i ∉ js ->
    clause_untouched vw nf i s s'.
  Proof.
    induction 1 as [|j js s s1 s2 Hj He Ho Hp IH]; intros Hi Hin; [apply untouched_refl|].
    rewrite not_elem_of_cons in Hin. destruct Hin as [Hne Hin]. eapply untouched_trans; [by apply Ho|by apply IH].
  Qed.
  Lemma reg_direction a p os rs (e e' : est) nf x y :
    trains_well R (ra_states a) A vw -> reg_created a p -> reg_history S A vw p os rs e -> reg_dims_of os rs = Some nf ->
    v_phys vw x -> reg_partial_fit S A e [x] [y] 1 = Ret (S_OK, e') ->
    let n := Z.to_nat (ra_clauses a / 2) in
    let fire := fires vw nf (e_ta e) x in
    let r := clamp 0 (ra_threshold a) (total_votes n fire (weight_of (ta_weights (e_ta e)))) in
    0 <= y <= ra_threshold a /\
    (r = y -> e_ta e' = e_ta e) /\
    (r < y -> exists js, pick_count (R := R) a (r - y) (length js) /\ (length js <= n)%nat /\ reg_picks vw a nf x 1 fire js (e_ta e) (e_ta e')) /\
    (y < r -> exists js, pick_count (R := R) a (r - y) (length js) /\ (length js <= n)%nat /\ reg_picks vw a nf x (-1) fire js (e_ta e) (e_ta e')).
  Proof.
    intros Hw Hc Hh Hd Hx E n fire r.
    destruct (reg_one_update g_ok f_ok HR S HS A vw a p os rs e e' nf x y Hw Hc Hh Hd Hx E) as (Hy & H1 & H2).
    split; [exact Hy|]. split; [exact H1|]. split; intros Hlt.
    - destruct (H2 ltac:(unfold train_response; fold n fire; fold r; lia)) as (js & Hp & Hl & Hk). exists js. split; [exact Hp|]. split; [exact Hl|].
      unfold train_response in Hk. fold n fire in Hk. fold r in Hk. by rewrite (proj2 (Z.ltb_lt r y) Hlt) in Hk.
    - destruct (H2 ltac:(unfold train_response; fold n fire; fold r; lia)) as (js & Hp & Hl & Hk). exists js. split; [exact Hp|]. split; [exact Hl|].
      unfold train_response in Hk. fold n fire in Hk. fold r in Hk. by rewrite (proj2 (Z.ltb_ge r y) ltac:(lia)) in Hk.
  Qed.
  Lemma reg_locality a p os rs (e e' : est) nf x y :
    trains_well R (ra_states a) A vw -> reg_created a p -> reg_history S A vw p os rs e -> reg_dims_of os rs = Some nf ->
    v_phys vw x -> reg_partial_fit S A e [x] [y] 1 = Ret (S_OK, e') ->
    exists js, (length js <= Z.to_nat (ra_clauses a / 2))%nat /\
      forall j, (j < Z.to_nat (ra_clauses a / 2))%nat -> j ∉ js -> clause_untouched vw nf j (e_ta e) (e_ta e').
  Proof.
    intros Hw Hc Hh Hd Hx E. destruct (reg_one_update g_ok f_ok HR S HS A vw a p os rs e e' nf x y Hw Hc Hh Hd Hx E) as (Hy & H1 & H2).
    destruct (Z.eq_dec (train_response vw a nf (e_ta e) x) y) as [Eq|Ne].
    - exists []. split; [cbn; lia|]. intros j _ _. rewrite (H1 Eq). apply untouched_refl.
    - destruct (H2 Ne) as (js & _ & Hl & Hk). exists js. split; [exact Hl|]. intros j Hj Hn. exact (picks_others _ _ _ _ _ _ _ _ _ Hk Hj Hn).
  Qed.
  (** C20 *)
  Lemma opposite_any t L r : (t < L)%nat -> (2 <= L)%nat -> 0 <= r -> (opposite t L r < L)%nat /\ opposite t L r <> t.
  Proof.
    intros Ht HL Hr. destruct (opp_value_range (Z.of_nat t) (Z.of_nat L) r ltac:(lia) ltac:(lia) Hr) as [H1 H2].
    unfold opposite. unfold opp_value in *. lia.
  Qed.
  Lemma opposite_onto t L l : (t < L)%nat -> (l < L)%nat -> l <> t -> Z.of_nat L <= int_max ->
    exists r, 0 <= r < 4294967296 /\ opposite t L r = l.
  Proof.
    intros Ht Hl Hne HL. unfold int_max in HL. destruct (opp_value_onto (Z.of_nat t) (Z.of_nat L) (Z.of_nat l)) as (r & Hr & E); try lia.
    exists r. split; [done|]. unfold opposite. unfold opp_value in E. rewrite E. apply Nat2Z.id.
  Qed.
End Step.

(** ** C45: cell width *)
Definition requested (c : string) : Z := if (c =? "int16")%string then 16 else if (c =? "int32")%string then 32 else 8.
Definition narrowest (c : string) (N w : Z) : Prop :=
  (w = 8 \/ w = 16 \/ w = 32) /\ N <= 2 ^ (w - 1) - 1 /\ requested c <= w /\
  forall w', (w' = 8 \/ w' = 16 \/ w' = 32) -> N <= 2 ^ (w' - 1) - 1 -> requested c <= w' -> w <= w'.
Lemma width_narrowest c N : counting_known c -> 1 <= N <= int_max -> narrowest c N (width_of c N).
Proof.
  intros Hc HN. unfold narrowest, width_of, normalize_counting_type, requested, int_max in *.
  change (2147483647) with (2 ^ 31 - 1) in HN.
  destruct Hc as [->|[->|[->| ->]]]; cbn -[Z.pow];
    destruct (Z.leb_spec N 127), (Z.leb_spec N 32767); cbn -[Z.pow]; try lia;
    (split; [auto|]); (split; [cbn; lia|]); (split; [lia|]); intros w' [->|[->| ->]]; cbn; lia.
Qed.
Lemma clf_width {R} g_ok f_ok (HR : rnd_ok R g_ok f_ok) S (HS : sch_ok S) A vw (HA : tsetlini_algo R A vw) a p os rs e L nf :
  clf_created a p -> clf_history S A vw p os rs e -> clf_dims_of os rs = Some (L, nf) ->
  narrowest (ca_counting a) (ca_states a) (nm_w (ta_matrix (e_ta e))) /\
  Z.of_nat (nm_rows (ta_matrix (e_ta e))) = Z.of_nat L * ca_clauses a /\ nm_cols (ta_matrix (e_ta e)) = nf.
Proof.
  intros Hc Hh Hd. destruct (clf_shape g_ok f_ok HR S HS A vw HA a p os rs e L nf Hc Hh Hd) as (-> & ? & ?). split; [|done].
  destruct (cc_valid _ _ Hc) as [[] []]. apply width_narrowest; [done|]. unfold is_int in *. lia.
Qed.
Lemma reg_width {R} g_ok f_ok (HR : rnd_ok R g_ok f_ok) S (HS : sch_ok S) A vw (HA : tsetlini_algo R A vw) a p os rs e nf :
  reg_created a p -> reg_history S A vw p os rs e -> reg_dims_of os rs = Some nf ->
  narrowest (ra_counting a) (ra_states a) (nm_w (ta_matrix (e_ta e))) /\
  Z.of_nat (nm_rows (ta_matrix (e_ta e))) = ra_clauses a /\ nm_cols (ta_matrix (e_ta e)) = nf.
Proof.
  intros Hc Hh Hd. destruct (reg_shape g_ok f_ok HR S HS A vw HA a p os rs e nf Hc Hh Hd) as (-> & ? & ?). split; [|done].
  destruct (rc_valid _ _ Hc) as [[] []]. apply width_narrowest; [done|]. unfold is_int in *. lia.
Qed.
