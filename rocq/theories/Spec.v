(** * Specification vocabulary, independent of the model's helper functions.

    A clause is a conjunction of literals. Feature [k] contributes the literal "x_k" when [inc k] and the literal
    "not x_k" when [incn k]. *)
From Verif Require Export Base Containers ContainersFacts.
Local Open Scope Z_scope.

(** every included literal holds on the sample *)
Definition clause_true (nf : nat) (inc incn x : nat -> bool) : bool :=
  forallb (fun k => (negb (inc k) || x k) && (negb (incn k) || negb (x k))) (seq 0 nf).
(** at least one literal is included *)
Definition clause_nonempty (nf : nat) (inc incn : nat -> bool) : bool :=
  existsb (fun k => inc k || incn k) (seq 0 nf).

Lemma clause_true_iff nf inc incn x :
  clause_true nf inc incn x = true <->
  forall k, (k < nf)%nat -> (inc k = true -> x k = true) /\ (incn k = true -> x k = false).
Proof.
  unfold clause_true. rewrite forallb_forall. split.
  - intros H k Hk. specialize (H k ltac:(apply in_seq; lia)).
    destruct (inc k), (incn k), (x k); simpl in *; split; congruence.
  - intros H k Hk%in_seq. destruct (H k ltac:(lia)) as [H1 H2].
    destruct (inc k), (incn k), (x k); simpl; auto; try (by rewrite H1 in * by done);
      try (specialize (H1 eq_refl)); try (specialize (H2 eq_refl)); congruence.
Qed.
Lemma clause_nonempty_iff nf inc incn :
  clause_nonempty nf inc incn = true <-> exists k, (k < nf)%nat /\ (inc k = true \/ incn k = true).
Proof.
  unfold clause_nonempty. rewrite existsb_exists. split.
  - intros (k & Hk%in_seq & H). exists k. apply orb_true_iff in H. split; [lia|done].
  - intros (k & Hk & H). exists k. rewrite in_seq. split; [lia|]. by apply orb_true_iff.
Qed.

(** ** Abstract views of samples and automata *)

(** feature [k] of a dense sample *)
Definition dense_bit (X : list Z) (k : nat) : bool :=
  match X !! k with Some v => negb (v =? 0) | None => false end.
(** literal [k] (negated literal [k]) of clause [j] is included: its automaton is in a non-negative state *)
Definition auto_inc (m : nmatrix) (j k : nat) : bool := 0 <=? nm_cell m (2 * j) k.
Definition auto_incn (m : nmatrix) (j k : nat) : bool := 0 <=? nm_cell m (2 * j + 1) k.
(** the same recorded in polarity bits *)
Definition pol_inc (p : bmatrix) (j k : nat) : bool := bm_bit 64 p (2 * j) k.
Definition pol_incn (p : bmatrix) (j k : nat) : bool := bm_bit 64 p (2 * j + 1) k.

(** a valid dense sample with nf features *)
Definition dense_ok (nf : nat) (X : list Z) : Prop :=
  length X = nf /\ Forall (fun v => v = 0 \/ v = 1) X.
(** a bit vector whose storage is exactly what its length needs *)
Definition bits_phys (X : bit_vector) : Prop :=
  length (bv_blocks X) = blocks_for 64 (bv_len X) /\ Forall (block_ok 64) (bv_blocks X).
(** a valid packed sample with nf features: exact storage, bits past the end clear *)
Definition bits_ok (nf : nat) (X : bit_vector) : Prop :=
  bv_len X = nf /\ bits_phys X /\ forall q, (nf <= q)%nat -> bv_bit 64 X q = false.

(** ** Votes *)

(** signed number of votes of the clauses of one label: even clauses vote for, odd ones against;
    [fires j], [weight j] range over the label's clauses *)
Fixpoint signed_votes (opl : nat) (fires : nat -> bool) (weight : nat -> Z) : Z :=
  match opl with
  | O => 0
  | S n => signed_votes n fires weight
           + (if fires n then (if Nat.even n then 1 + weight n else - (1 + weight n)) else 0)
  end.
(** unsigned number of votes *)
Fixpoint total_votes (n : nat) (fires : nat -> bool) (weight : nat -> Z) : Z :=
  match n with
  | O => 0
  | S n => total_votes n fires weight + (if fires n then 1 + weight n else 0)
  end.
Definition clamp (lo hi v : Z) : Z := Z.min hi (Z.max lo v).
(** additional votes of clause j; no weights are kept by an unweighted estimator *)
Definition weight_of (ws : list Z) (j : nat) : Z := default 0 (ws !! j).

(** ** Automata moves, for one literal which is true ([lit]) or false on the sample *)
Definition up (N st : Z) : Z := if st <? N - 1 then st + 1 else st.
Definition down (N st : Z) : Z := if - N <? st then st - 1 else st.
(** Type I feedback, clause fired; [toss] is the literal's coin toss *)
Definition type1_fired (boost : bool) (N : Z) (lit toss : bool) (st : Z) : Z :=
  if lit then (if boost || negb toss then up N st else st) else (if toss then down N st else st).
(** Type I feedback, clause did not fire *)
Definition type1_silent (N : Z) (toss : bool) (st : Z) : Z := if toss then down N st else st.
(** Type II feedback, clause fired: false literals which are not included get closer to inclusion *)
Definition type2 (lit : bool) (st : Z) : Z := if negb lit && (st <? 0) then st + 1 else st.
