(** * C62: the feedback kernels agree.
    lib/src/tsetlini_algo_bitwise.hpp has each kernel in two versions, one feature at a time and one 64-feature word at a time; the
    classic algorithm has a third.  Given the same coin tosses they do the same thing to the automata, and the two bitwise ones also
    to the polarity bits, whatever the number of features.  Vocabulary: KernelProps.v ([packs], [stored], [in_step], [fits]);
    [bits_ok], [zo_list], [dense_bit]: Spec.v, FeedbackFacts.v. *)
From Verif Require Import KernelToy LawsBitwise InvFacts EstPredict Reach Toy ToyFacts.
From stdpp Require Import list.
Local Open Scope Z_scope.

(** Type I, clause silent *)
Theorem C62_silent_kernels_agree : forall nf Ns j ct1 ct2 W1 W2 s,
  stored nf j s -> 1 <= Ns -> fits Ns s -> zo_list nf ct1 -> zo_list nf ct2 -> packs nf W1 ct1 -> packs nf W2 ct2 ->
  exists s', bw_block1_words Ns j W1 W2 s = Ret s' /\ bw_block1 nf Ns j ct1 ct2 s = Ret s' /\
    block1 nf Ns j ct1 ct2 s.1 = Ret s'.1 /\ stored nf j s'.
Proof. exact silent_agree. Qed.
Print Assumptions C62_silent_kernels_agree.
(** Type I, clause fired *)
Theorem C62_fired_kernels_agree : forall nf boost Ns j X D ct1 ct2 W1 W2 s,
  stored nf j s -> 2 <= Ns -> fits Ns s -> bits_ok nf X -> zo_list nf D -> (forall c, (c < nf)%nat -> dense_bit D c = bv_bit 64 X c) ->
  zo_list nf ct1 -> zo_list nf ct2 -> packs nf W1 ct1 -> packs nf W2 ct2 ->
  exists s', bw_block2_words boost Ns j X W1 W2 s = Ret s' /\ bw_block2 boost Ns j X ct1 ct2 s = Ret s' /\
    block2 boost nf Ns j D ct1 ct2 s.1 = Ret s'.1 /\ stored nf j s'.
Proof. exact fired_agree. Qed.
Print Assumptions C62_fired_kernels_agree.
(** Type II *)
Theorem C62_type2_kernels_agree : forall nf j X D s,
  stored nf j s -> in_step s -> bits_ok nf X -> zo_list nf D -> (forall c, (c < nf)%nat -> dense_bit D c = bv_bit 64 X c) ->
  exists s', bw_block3_ nf j X s = Ret s' /\ bw_block3 j X s = Ret s' /\ block3 nf j D s.1 = Ret s'.1 /\ stored nf j s'.
Proof. exact type2_agree. Qed.
Print Assumptions C62_type2_kernels_agree.
(** the state of every trained bitwise estimator (number_of_states >= 2) is one the above speaks about, for every clause [j] *)
Theorem C62_classifier_states_qualify : forall (R : rnd) g_ok f_ok (S : sch) a p os rs e L nf,
  rnd_ok R g_ok f_ok -> sch_ok S -> clf_created a p -> clf_history S (Algo.bitwise R) (bw_view R) p os rs e -> 2 <= ca_states a ->
  clf_dims_of os rs = Some (L, nf) -> let s := (ta_matrix (e_ta e), ta_pol (e_ta e)) in
  in_step s /\ fits (ca_states a) s /\ forall j, (2 * j < nm_rows s.1)%nat -> stored nf j s.
Proof. intros * HR HS Hc Hh H2 Hd. exact (clf_stored g_ok f_ok HR S HS a p os rs e L nf Hc H2 Hh Hd). Qed.
Print Assumptions C62_classifier_states_qualify.
Theorem C62_regressor_states_qualify : forall (R : rnd) g_ok f_ok (S : sch) a p os rs e nf,
  rnd_ok R g_ok f_ok -> sch_ok S -> reg_created a p -> reg_history S (Algo.bitwise R) (bw_view R) p os rs e -> 2 <= ra_states a ->
  reg_dims_of os rs = Some nf -> let s := (ta_matrix (e_ta e), ta_pol (e_ta e)) in
  in_step s /\ fits (ra_states a) s /\ forall j, (2 * j < nm_rows s.1)%nat -> stored nf j s.
Proof. intros * HR HS Hc Hh H2 Hd. exact (reg_stored g_ok f_ok HR S HS a p os rs e nf Hc H2 Hh Hd). Qed.
Print Assumptions C62_regressor_states_qualify.
(** (defect) with number_of_states = 1 the feature-wise Type I kernel, which is the one in use, flips the polarity bit of an
    automaton that does not move; the word-wise one does not *)
Theorem C62_one_state_refuted : exists nf boost j X ct1 ct2 W1 W2 s,
  stored nf j s /\ in_step s /\ fits 1 s /\ bits_ok nf X /\ zo_list nf ct1 /\ zo_list nf ct2 /\ packs nf W1 ct1 /\ packs nf W2 ct2 /\
  exists s1 s2, bw_block2_words boost 1 j X W1 W2 s = Ret s1 /\ bw_block2 boost 1 j X ct1 ct2 s = Ret s2 /\
    in_step s1 /\ ~ in_step s2.
Proof. exact one_state_differs. Qed.
Print Assumptions C62_one_state_refuted.

(** 70 features: two words, the second of 6 bits; the kernels move automata of the second word, across the inclusion boundary *)
Example C62_example_state : stored 70 0 k_s /\ in_step k_s /\ fits 5 k_s.
Proof. exact k_stored. Qed.
Example C62_example_inputs : bits_ok 70 k_X /\ zo_list 70 (k_ct 3) /\ zo_list 70 (k_ct 5) /\ packs 70 (k_W 3) (k_ct 3) /\ packs 70 (k_W 5) (k_ct 5).
Proof. exact (conj k_X_ok (conj (k_zo 3) (conj (k_zo 5) k_packs))). Qed.
Example C62_example_silent : at_col 65 (Ret k_s) = Some (0, true, 3, true) /\
  at_col 65 (bw_block1_words 5 0 (k_W 5) (k_W 3) k_s) = Some (-1, false, 3, true).
Proof. exact k_silent. Qed.
Example C62_example_fired : at_col 69 (Ret k_s) = Some (-2, false, 1, true) /\
  at_col 69 (bw_block2_words true 5 0 k_X (k_W 3) (k_W 5) k_s) = Some (-1, false, 1, true) /\
  at_col 65 (bw_block2_words true 5 0 k_X (k_W 3) (k_W 5) k_s) = Some (1, true, 2, true).
Proof. exact k_fired. Qed.
Example C62_example_type2 : at_col 62 (Ret k_s) = Some (-1, false, 2, true) /\ at_col 62 (bw_block3_ 70 0 k_X k_s) = Some (0, true, 2, true).
Proof. exact k_type2. Qed.
