(** * Property theorems about training: C16 - C20, C22, C23, C25 - C29, C42.  Reading guide: see PropsPredict.v.
    One training step is observed as partial_fit of a fitted estimator with one sample and one epoch; e and e' are the
    estimators before and after.  [trains_well R N A vw] : the classic algorithm, or the bitwise one with N >= 2 states.
    [pos_state s j k], [neg_state s j k] : states of the automata of clause j for literals x_k and not x_k.
    [opposite t L r] : the label (t + 1 + r mod (L - 1)) mod L.  [f_draw R f i] : the i-th float drawn from generator state f.
    [clause_untouched] : automata, included literals and weight of the clause are as before. *)
From Verif Require Import ToyTrain.
From Coq Require Import Permutation.
From stdpp Require Import list.
Local Open Scope Z_scope.

(** C16: labels other than the sample's and the opposite one keep their clauses. *)
Theorem C16_classifier_step_is_local : forall (R : rnd) g_ok f_ok (S : sch) (A : algo R) (vw : aview A) a p os rs e e' L nf x t ml,
  rnd_ok R g_ok f_ok -> sch_ok S -> trains_well R (ca_states a) A vw -> clf_created a p -> clf_history S A vw p os rs e ->
  clf_dims_of os rs = Some (L, nf) -> v_phys vw x -> clf_partial_fit S A e [x] [t] ml 1 = Ret (S_OK, e') ->
  forall l j, (l < L)%nat -> Z.of_nat l <> t -> l <> opposite (Z.to_nat t) L (g_next R (e_igen e)).1 ->
    (l * Z.to_nat (ca_clauses a / 2) <= j < l * Z.to_nat (ca_clauses a / 2) + Z.to_nat (ca_clauses a / 2))%nat ->
    clause_untouched vw nf j (e_ta e) (e_ta e').
Proof. intros * HR HS Hw Hc Hh Hd Hx E. intros l j Hl H1 H2 Hj.
  refine ((one_locality g_ok f_ok HR S HS A vw a p os rs e e' L nf x t ml Hw Hc Hh Hd Hx E) l Hl _ H2 j Hj). intros ->. apply H1, Z2Nat.id. exact (proj1 (proj1 (one_update g_ok f_ok HR S HS A vw a p os rs e e' L nf x t ml Hw Hc Hh Hd Hx E))). Qed.
Print Assumptions C16_classifier_step_is_local.
(** C16 for the regressor: at most number-of-clauses picks, clauses not picked are untouched. *)
Theorem C16_regressor_step_is_local : forall (R : rnd) g_ok f_ok (S : sch) (A : algo R) (vw : aview A) a p os rs e e' nf x y,
  rnd_ok R g_ok f_ok -> sch_ok S -> trains_well R (ra_states a) A vw -> reg_created a p -> reg_history S A vw p os rs e ->
  reg_dims_of os rs = Some nf -> v_phys vw x -> reg_partial_fit S A e [x] [y] 1 = Ret (S_OK, e') ->
  exists js, (length js <= Z.to_nat (ra_clauses a / 2))%nat /\
    forall j, (j < Z.to_nat (ra_clauses a / 2))%nat -> j ∉ js -> clause_untouched vw nf j (e_ta e) (e_ta e').
Proof. intros * HR HS Hw Hc Hh Hd Hx E. exact (reg_locality g_ok f_ok HR S HS A vw a p os rs e e' nf x y Hw Hc Hh Hd Hx E). Qed.
Print Assumptions C16_regressor_step_is_local.

(** C19: clause i of the sample's label uses the i-th float draw, clause i of the opposite label the (clauses + i)-th.  A clause is
    selected when its draw does not exceed the threshold; Type I goes to even clauses of the sample's label and odd clauses of the
    opposite one, Type II to the others; clauses that are not selected, and those of all other labels, are untouched.
    [gets_type1], [gets_type2] spell this out. *)
Theorem C19_who_gets_feedback : forall (R : rnd) (S : sch) (A : algo R) (vw : aview A) a (e : est (a_pol A) (eS S) (eG R) (eF R)) L nf x t j,
  let n := Z.to_nat (ca_clauses a / 2) in
  let T := ca_threshold a in
  let o := opposite (Z.to_nat t) L (g_next R (e_igen e)).1 in
  let draw := f_draw R (e_fgen e) in
  let votes l := clamp (- T) T (signed_votes n (fun i => fires vw nf (e_ta e) x (l * n + i)) (fun i => weight_of (ta_weights (e_ta e)) (l * n + i))) in
  (gets_type1 S A vw a e L nf x t j <-> exists i, (i < n)%nat /\
     (Nat.even i = true /\ j = (Z.to_nat t * n + i)%nat /\ f_gt (draw i) (f32_mul (f32_div f32_one (f32_of_Z (T * 2))) (f32_of_Z (T - votes (Z.to_nat t)))) = false \/
      Nat.even i = false /\ j = (o * n + i)%nat /\ f_gt (draw (n + i)%nat) (f32_mul (f32_div f32_one (f32_of_Z (T * 2))) (f32_of_Z (T + votes o))) = false)) /\
  (gets_type2 S A vw a e L nf x t j <-> exists i, (i < n)%nat /\
     (Nat.even i = false /\ j = (Z.to_nat t * n + i)%nat /\ f_gt (draw i) (f32_mul (f32_div f32_one (f32_of_Z (T * 2))) (f32_of_Z (T - votes (Z.to_nat t)))) = false \/
      Nat.even i = true /\ j = (o * n + i)%nat /\ f_gt (draw (n + i)%nat) (f32_mul (f32_div f32_one (f32_of_Z (T * 2))) (f32_of_Z (T + votes o))) = false)).
Proof. intros. split; exact (iff_refl _). Qed.
Print Assumptions C19_who_gets_feedback.
Theorem C19_nobody_else_is_touched : forall (R : rnd) g_ok f_ok (S : sch) (A : algo R) (vw : aview A) a p os rs e e' L nf x t ml,
  rnd_ok R g_ok f_ok -> sch_ok S -> trains_well R (ca_states a) A vw -> clf_created a p -> clf_history S A vw p os rs e ->
  clf_dims_of os rs = Some (L, nf) -> v_phys vw x -> clf_partial_fit S A e [x] [t] ml 1 = Ret (S_OK, e') ->
  forall j, (j < L * Z.to_nat (ca_clauses a / 2))%nat -> ~ gets_type1 S A vw a e L nf x t j -> ~ gets_type2 S A vw a e L nf x t j ->
    clause_untouched vw nf j (e_ta e) (e_ta e').
Proof. intros * HR HS Hw Hc Hh Hd Hx E. exact (gets_none g_ok f_ok HR S HS A vw a p os rs e e' L nf x t ml Hw Hc Hh Hd Hx E). Qed.
Print Assumptions C19_nobody_else_is_touched.

(** C17: Type I.  Firing clause: a true literal's automaton goes up (with boost always, else unless its toss is set), a false one's
    goes down when its toss is set; at most one step, stopping at both ends ([type1_fired] in Spec.v); the number of set tosses is
    what the specificity s prescribes; the weight goes up by one while below max_weight. *)
Theorem C17_type1_firing_clause : forall (R : rnd) g_ok f_ok (S : sch) (A : algo R) (vw : aview A) a p os rs e e' L nf x t ml,
  rnd_ok R g_ok f_ok -> sch_ok S -> trains_well R (ca_states a) A vw -> clf_created a p -> clf_history S A vw p os rs e ->
  clf_dims_of os rs = Some (L, nf) -> v_phys vw x -> clf_partial_fit S A e [x] [t] ml 1 = Ret (S_OK, e') ->
  forall j, gets_type1 S A vw a e L nf x t j -> fires vw nf (e_ta e) x j = true ->
  exists tp tn : nat -> bool,
    toss_count (ca_s a) nf (Z.of_nat (how_many nf tp)) /\ toss_count (ca_s a) nf (Z.of_nat (how_many nf tn)) /\
    (forall k, (k < nf)%nat ->
      pos_state (e_ta e') j k = type1_fired (ca_boost a) (ca_states a) (v_x vw x k) (tp k) (pos_state (e_ta e) j k) /\
      neg_state (e_ta e') j k = type1_fired (ca_boost a) (ca_states a) (negb (v_x vw x k)) (tn k) (neg_state (e_ta e) j k)) /\
    weight_of (ta_weights (e_ta e')) j =
      (let w := weight_of (ta_weights (e_ta e)) j in if ca_weighted a && (w + 1 <? ca_max_weight a) then w + 1 else w).
Proof. intros * HR HS Hw Hc Hh Hd Hx E. exact (one_type1_fired g_ok f_ok HR S HS A vw a p os rs e e' L nf x t ml Hw Hc Hh Hd Hx E). Qed.
Print Assumptions C17_type1_firing_clause.
(** Silent clause: automata only move down, stopping at -number_of_states; the number of moves is what s prescribes; same weight. *)
Theorem C17_type1_silent_clause : forall (R : rnd) g_ok f_ok (S : sch) (A : algo R) (vw : aview A) a p os rs e e' L nf x t ml,
  rnd_ok R g_ok f_ok -> sch_ok S -> trains_well R (ca_states a) A vw -> clf_created a p -> clf_history S A vw p os rs e ->
  clf_dims_of os rs = Some (L, nf) -> v_phys vw x -> clf_partial_fit S A e [x] [t] ml 1 = Ret (S_OK, e') ->
  forall j, gets_type1 S A vw a e L nf x t j -> fires vw nf (e_ta e) x j = false ->
  exists dp dn : nat -> nat,
    moves (toss_count (ca_s a) nf) (sum_below nf dp) /\ moves (toss_count (ca_s a) nf) (sum_below nf dn) /\
    (forall k, (k < nf)%nat ->
      pos_state (e_ta e') j k = Nat.iter (dp k) (down (ca_states a)) (pos_state (e_ta e) j k) /\
      neg_state (e_ta e') j k = Nat.iter (dn k) (down (ca_states a)) (neg_state (e_ta e) j k)) /\
    weight_of (ta_weights (e_ta e')) j = weight_of (ta_weights (e_ta e)) j.
Proof. intros * HR HS Hw Hc Hh Hd Hx E. exact (one_type1_silent g_ok f_ok HR S HS A vw a p os rs e e' L nf x t ml Hw Hc Hh Hd Hx E). Qed.
Print Assumptions C17_type1_silent_clause.

(** C18: Type II.  Firing clause: exactly the excluded (negative) automata of false literals go up by one; weight down by one, at least 0.
    Silent clause: nothing. *)
Theorem C18_type2 : forall (R : rnd) g_ok f_ok (S : sch) (A : algo R) (vw : aview A) a p os rs e e' L nf x t ml,
  rnd_ok R g_ok f_ok -> sch_ok S -> trains_well R (ca_states a) A vw -> clf_created a p -> clf_history S A vw p os rs e ->
  clf_dims_of os rs = Some (L, nf) -> v_phys vw x -> clf_partial_fit S A e [x] [t] ml 1 = Ret (S_OK, e') ->
  forall j, gets_type2 S A vw a e L nf x t j ->
  (fires vw nf (e_ta e) x j = true ->
    (forall k, (k < nf)%nat ->
      pos_state (e_ta e') j k = pos_state (e_ta e) j k + (if negb (v_x vw x k) && (pos_state (e_ta e) j k <? 0) then 1 else 0) /\
      neg_state (e_ta e') j k = neg_state (e_ta e) j k + (if v_x vw x k && (neg_state (e_ta e) j k <? 0) then 1 else 0)) /\
    weight_of (ta_weights (e_ta e')) j = Z.max 0 (weight_of (ta_weights (e_ta e)) j - 1)) /\
  (fires vw nf (e_ta e) x j = false -> clause_untouched vw nf j (e_ta e) (e_ta e')).
Proof. intros * HR HS Hw Hc Hh Hd Hx E. exact (one_type2_explicit g_ok f_ok HR S HS A vw a p os rs e e' L nf x t ml Hw Hc Hh Hd Hx E). Qed.
Print Assumptions C18_type2.
(** all four cases occur in one step or the other of the toy estimator *)
Example C16_C17_C18_C19_example : exists e e1 e2, clf_history toy_sch CL (cl_view toy) toy_clf_params toy_fit1 [CRStatus S_OK] e /\
  clf_dims_of toy_fit1 [CRStatus S_OK] = Some (2%nat, 3%nat) /\
  clf_partial_fit toy_sch CL e [[0; 1; 1]] [1] 0 1 = Ret (S_OK, e1) /\
  gets_type1 toy_sch CL (cl_view toy) toy_a e 2 3 [0; 1; 1] 1 2 /\ fires (cl_view toy) 3 (e_ta e) [0; 1; 1] 2 = true /\
  gets_type2 toy_sch CL (cl_view toy) toy_a e 2 3 [0; 1; 1] 1 3 /\ fires (cl_view toy) 3 (e_ta e) [0; 1; 1] 3 = false /\
  clf_partial_fit toy_sch CL e [[0; 1; 1]] [0] 0 1 = Ret (S_OK, e2) /\
  gets_type1 toy_sch CL (cl_view toy) toy_a e 2 3 [0; 1; 1] 0 0 /\ fires (cl_view toy) 3 (e_ta e) [0; 1; 1] 0 = false /\
  gets_type2 toy_sch CL (cl_view toy) toy_a e 2 3 [0; 1; 1] 0 1 /\ fires (cl_view toy) 3 (e_ta e) [0; 1; 1] 1 = true.
Proof. exact toy_step. Qed.

(** C20: the opposite label is a label other than the sample's, and every such label is the opposite for some 32-bit draw. *)
Theorem C20_opposite_label : forall (R : rnd) g_ok f_ok (S : sch) (A : algo R) (vw : aview A) a p os rs e e' L nf x t ml,
  rnd_ok R g_ok f_ok -> sch_ok S -> trains_well R (ca_states a) A vw -> clf_created a p -> clf_history S A vw p os rs e ->
  clf_dims_of os rs = Some (L, nf) -> v_phys vw x -> clf_partial_fit S A e [x] [t] ml 1 = Ret (S_OK, e') ->
  0 <= t < Z.of_nat L /\ (opposite (Z.to_nat t) L (g_next R (e_igen e)).1 < L)%nat /\ opposite (Z.to_nat t) L (g_next R (e_igen e)).1 <> Z.to_nat t.
Proof. intros * HR HS Hw Hc Hh Hd Hx E. exact (one_opposite_label g_ok f_ok HR S HS A vw a p os rs e e' L nf x t ml Hw Hc Hh Hd Hx E). Qed.
Print Assumptions C20_opposite_label.
Theorem C20_every_label_possible : forall t L l, (t < L)%nat -> (l < L)%nat -> l <> t -> Z.of_nat L <= int_max ->
  exists r, 0 <= r < 4294967296 /\ opposite t L r = l.
Proof. exact opposite_onto. Qed.
Print Assumptions C20_every_label_possible.
Example C20_example : map (opposite 1 4) [0; 1; 2; 3] = [2; 3; 0; 2]%nat.
Proof. reflexivity. Qed.

(** C22: training calls.  [train_table ok e (st, e')] : S_OK and ok, or S_VALUE_ERROR, not ok and e' = e. *)
Theorem C22_classifier_fit_table : forall (R : rnd) g_ok f_ok (S : sch) (A : algo R) (vw : aview A) a p os rs e,
  rnd_ok R g_ok f_ok -> sch_ok S -> tsetlini_algo R A vw -> clf_created a p -> clf_history S A vw p os rs e ->
  forall X y ml n st e', Forall (v_phys vw) X -> clf_fit S A e X y ml n = Ret (st, e') ->
  train_table (X <> [] /\ length y = length X /\ (exists nf, Forall (v_ok vw nf) X) /\ Forall (fun v => 0 <= v) y) e (st, e').
Proof. intros * HR HS HA Hc Hh. exact (clf_fit_table g_ok f_ok HR S HS A vw HA a p os rs e Hc Hh). Qed.
Print Assumptions C22_classifier_fit_table.
Theorem C22_classifier_partial_fit_table : forall (R : rnd) g_ok f_ok (S : sch) (A : algo R) (vw : aview A) a p os rs e,
  rnd_ok R g_ok f_ok -> sch_ok S -> tsetlini_algo R A vw -> clf_created a p -> clf_history S A vw p os rs e ->
  forall X y ml n st e', Forall (v_phys vw) X -> clf_partial_fit S A e X y ml n = Ret (st, e') ->
  train_table (X <> [] /\ length y = length X /\
    match clf_dims_of os rs with
    | None => (exists nf, Forall (v_ok vw nf) X) /\ Forall (fun v => 0 <= v) y
    | Some (L, nf) => Forall (v_ok vw nf) X /\ Forall (fun v => 0 <= v < Z.of_nat L) y
    end) e (st, e').
Proof. intros * HR HS HA Hc Hh. exact (clf_partial_table g_ok f_ok HR S HS A vw HA a p os rs e Hc Hh). Qed.
Print Assumptions C22_classifier_partial_fit_table.
Theorem C22_regressor_fit_table : forall (R : rnd) g_ok f_ok (S : sch) (A : algo R) (vw : aview A) a p os rs e,
  rnd_ok R g_ok f_ok -> sch_ok S -> tsetlini_algo R A vw -> reg_created a p -> reg_history S A vw p os rs e ->
  forall X y n st e', Forall (v_phys vw) X -> reg_fit S A e X y n = Ret (st, e') ->
  train_table (X <> [] /\ length y = length X /\ (exists nf, Forall (v_ok vw nf) X) /\ Forall (fun v => 0 <= v <= ra_threshold a) y) e (st, e').
Proof. intros * HR HS HA Hc Hh. exact (reg_fit_table g_ok f_ok HR S HS A vw HA a p os rs e Hc Hh). Qed.
Print Assumptions C22_regressor_fit_table.
Theorem C22_regressor_partial_fit_table : forall (R : rnd) g_ok f_ok (S : sch) (A : algo R) (vw : aview A) a p os rs e,
  rnd_ok R g_ok f_ok -> sch_ok S -> tsetlini_algo R A vw -> reg_created a p -> reg_history S A vw p os rs e ->
  forall X y n st e', Forall (v_phys vw) X -> reg_partial_fit S A e X y n = Ret (st, e') ->
  train_table (X <> [] /\ length y = length X /\
    match reg_dims_of os rs with None => exists nf, Forall (v_ok vw nf) X | Some nf => Forall (v_ok vw nf) X end /\
    Forall (fun v => 0 <= v <= ra_threshold a) y) e (st, e').
Proof. intros * HR HS HA Hc Hh. exact (reg_partial_table g_ok f_ok HR S HS A vw HA a p os rs e Hc Hh). Qed.
Print Assumptions C22_regressor_partial_fit_table.
(** the toy histories contain both an accepted and a rejected training call *)
Example C22_example : exists e,
  clf_history toy_sch (Algo.bitwise toy) (bw_view toy) toy_clf_params (toy_clf_ops (Algo.bitwise toy) toy_B) (toy_clf_res [0; 1; 1; 0] [0; 1; 1; 0]) e.
Proof. exact toy_bitwise_clf. Qed.

(** C23: fit on any reachable unweighted estimator ends as fit on a new one with the same parameters does: both fail alike, or both
    report the same status, and on success give the same parameters, model and generators. *)
Theorem C23_refit_classifier : forall (R : rnd) g_ok f_ok (S : sch) (A : algo R) (vw : aview A) a p os rs e,
  rnd_ok R g_ok f_ok -> sch_ok S -> tsetlini_algo R A vw -> clf_created a p -> clf_history S A vw p os rs e ->
  forall X y ml epochs, ca_weighted a = false -> Forall (v_phys vw) X ->
  orel (fun r1 r2 => r2.1 = r1.1 /\ (r1.1 = S_OK /\ equal_estimator A S r1.2 r2.2 \/ r1.1 <> S_OK /\ r1.2 = e))
    (clf_fit S A e X y ml epochs) (clf_fit S A (construct S A p) X y ml epochs).
Proof. intros * HR HS HA Hc Hh * Hw HX. exact (clf_refit g_ok f_ok HR A vw HA S HS a p os rs e X y ml epochs Hc Hw Hh HX). Qed.
Print Assumptions C23_refit_classifier.
Theorem C23_refit_regressor : forall (R : rnd) g_ok f_ok (S : sch) (A : algo R) (vw : aview A) a p os rs e,
  rnd_ok R g_ok f_ok -> sch_ok S -> tsetlini_algo R A vw -> reg_created a p -> reg_history S A vw p os rs e ->
  forall X y epochs, ra_weighted a = false -> Forall (v_phys vw) X ->
  orel (fun r1 r2 => r2.1 = r1.1 /\ (r1.1 = S_OK /\ equal_estimator A S r1.2 r2.2 \/ r1.1 <> S_OK /\ r1.2 = e))
    (reg_fit S A e X y epochs) (reg_fit S A (construct S A p) X y epochs).
Proof. intros * HR HS HA Hc Hh * Hw HX. exact (reg_refit g_ok f_ok HR A vw HA S HS a p os rs e X y epochs Hc Hw Hh HX). Qed.
Print Assumptions C23_refit_regressor.
Example C23_example : exists p e e1 e2, clf_created toy_ua p /\ ca_weighted toy_ua = false /\
  clf_history toy_sch CL (cl_view toy) p toy_fit1 [CRStatus S_OK] e /\
  clf_fit toy_sch CL e toy_X toy_y 0 2 = Ret (S_OK, e1) /\ clf_fit toy_sch CL (construct toy_sch CL p) toy_X toy_y 0 2 = Ret (S_OK, e2).
Proof. exact toy_refit. Qed.

(** C25 *)
Theorem C25_classifier_incremental : forall (R : rnd) g_ok f_ok (S : sch) (A : algo R) (vw : aview A) a p os rs e,
  rnd_ok R g_ok f_ok -> sch_ok S -> tsetlini_algo R A vw -> clf_created a p -> clf_history S A vw p os rs e ->
  forall e1 X y ml ml' n m, Forall (v_phys vw) X -> clf_fit S A e X y ml n = Ret (S_OK, e1) ->
  clf_partial_fit S A e1 X y ml' m = clf_fit S A e X y ml (n + m).
Proof. intros * HR HS HA Hc Hh * HX E. exact (clf_incremental g_ok f_ok HR S HS A vw HA a p os rs e e1 X y ml ml' n m Hc Hh HX E). Qed.
Print Assumptions C25_classifier_incremental.
Theorem C25_regressor_incremental : forall (R : rnd) g_ok f_ok (S : sch) (A : algo R) (vw : aview A) a p os rs e,
  rnd_ok R g_ok f_ok -> sch_ok S -> tsetlini_algo R A vw -> reg_created a p -> reg_history S A vw p os rs e ->
  forall e1 X y n m, Forall (v_phys vw) X -> reg_fit S A e X y n = Ret (S_OK, e1) ->
  reg_partial_fit S A e1 X y m = reg_fit S A e X y (n + m).
Proof. intros * HR HS HA Hc Hh * HX E. exact (reg_incremental g_ok f_ok HR S HS A vw HA a p os rs e e1 X y n m Hc Hh HX E). Qed.
Print Assumptions C25_regressor_incremental.
Example C25_example : exists e1, clf_fit toy_sch CL (construct toy_sch CL toy_clf_params) toy_X toy_y 0 2 = Ret (S_OK, e1).
Proof. exact toy_fits. Qed.

(** C26 *)
Theorem C26_classifier_first_partial_fit : forall (R : rnd) g_ok f_ok (S : sch) (A : algo R) (vw : aview A) a p os rs e,
  rnd_ok R g_ok f_ok -> sch_ok S -> tsetlini_algo R A vw -> clf_created a p -> clf_history S A vw p os rs e ->
  forall X y ml epochs, CRStatus S_OK ∉ rs -> clf_partial_fit S A e X y ml epochs = clf_fit S A e X y ml epochs.
Proof. intros * HR HS HA Hc Hh * Hn. exact (clf_first_partial_fit g_ok f_ok HR A vw HA S HS a p os rs e X y ml epochs Hc Hh Hn). Qed.
Print Assumptions C26_classifier_first_partial_fit.
Theorem C26_regressor_first_partial_fit : forall (R : rnd) g_ok f_ok (S : sch) (A : algo R) (vw : aview A) a p os rs e,
  rnd_ok R g_ok f_ok -> sch_ok S -> tsetlini_algo R A vw -> reg_created a p -> reg_history S A vw p os rs e ->
  forall X y epochs, RRStatus S_OK ∉ rs -> reg_partial_fit S A e X y epochs = reg_fit S A e X y epochs.
Proof. intros * HR HS HA Hc Hh * Hn. exact (reg_first_partial_fit g_ok f_ok HR A vw HA S HS a p os rs e X y epochs Hc Hh Hn). Qed.
Print Assumptions C26_regressor_first_partial_fit.
(** also after a rejected call *)
Example C26_example : exists e, clf_history toy_sch CL (cl_view toy) toy_clf_params [CFit CL toy_X [0; 1; -1; 0] 0 3] [CRStatus S_VALUE_ERROR] e /\
  CRStatus S_OK ∉ [CRStatus S_VALUE_ERROR] /\ results (clf_partial_fit toy_sch CL e toy_X toy_y 0 1) = Some S_OK.
Proof. exact toy_first. Qed.

(** C27: parameter sets equal but for n_jobs and the tile size, the same calls, two arbitrary schedules: the same results, and
    the same parameters (but those two), automata, weights and generators. *)
Theorem C27_classifier_schedule_free : forall (R : rnd) g_ok f_ok (A : algo R) (vw : aview A) S1 S2 a1 a2 p1 p2 os,
  rnd_ok R g_ok f_ok -> tsetlini_algo R A vw -> sch_ok S1 -> sch_ok S2 -> clf_created a1 p1 -> clf_created a2 p2 ->
  (forall k, k <> "n_jobs"%string -> k <> "clause_output_tile_size"%string -> p2 !! k = p1 !! k) ->
  Forall (clf_op_phys A vw) os -> evaluates_ok S1 A vw None (construct S1 A p1) os ->
  orel (fun r1 r2 => r2.1 = r1.1 /\ same_estimator r1.2 r2.2)
    (clf_run S1 A (construct S1 A p1) os) (clf_run S2 A (construct S2 A p2) os).
Proof. intros * HR HA H1 H2 Hc1 Hc2 Hs Ho He. exact (clf_schedule_free g_ok f_ok HR A vw HA S1 S2 a1 a2 p1 p2 os H1 H2 Hc1 Hc2 Hs Ho He). Qed.
Print Assumptions C27_classifier_schedule_free.
Theorem C27_regressor_schedule_free : forall (R : rnd) g_ok f_ok (A : algo R) (vw : aview A) S1 S2 a1 a2 p1 p2 os,
  rnd_ok R g_ok f_ok -> tsetlini_algo R A vw -> sch_ok S1 -> sch_ok S2 -> reg_created a1 p1 -> reg_created a2 p2 ->
  (forall k, k <> "n_jobs"%string -> k <> "clause_output_tile_size"%string -> p2 !! k = p1 !! k) ->
  Forall (reg_op_phys A vw) os ->
  orel (fun r1 r2 => r2.1 = r1.1 /\ same_estimator r1.2 r2.2)
    (reg_run S1 A (construct S1 A p1) os) (reg_run S2 A (construct S2 A p2) os).
Proof. intros * HR HA H1 H2 Hc1 Hc2 Hs Ho. exact (reg_schedule_free g_ok f_ok HR A vw HA S1 S2 a1 a2 p1 p2 os H1 H2 Hc1 Hc2 Hs Ho). Qed.
Print Assumptions C27_regressor_schedule_free.
(** one thread and tile 16 against seven threads and tile 64, under opposite iteration orders *)
Example C27_example : exists a2 p2 e1 e2, clf_created a2 p2 /\ ca_n_jobs a2 = 7 /\ ca_tile a2 = 64 /\ ca_n_jobs toy_a = 2 /\ ca_tile toy_a = 16 /\
  (forall k, k <> "n_jobs"%string -> k <> "clause_output_tile_size"%string -> p2 !! k = toy_clf_params !! k) /\
  clf_history toy_sch CL (cl_view toy) toy_clf_params (toy_clf_ops CL toy_X) (toy_clf_res [0; 1; 0; 0] [0; 1; 1; 0]) e1 /\
  clf_history toy_sch2 CL (cl_view toy) p2 (toy_clf_ops CL toy_X) (toy_clf_res [0; 1; 0; 0] [0; 1; 1; 0]) e2.
Proof. exact toy_jobs. Qed.

(** C28: an accepted call with n epochs is the sequence of single-sample updates [concat viss], where viss lists the samples of each
    of the n epochs in some order: every sample once per epoch.  Each update touches the clauses as prescribed by [clf_updates] /
    [reg_updates] (which say of each single update what C16 - C19 and C42 say). *)
Theorem C28_classifier_epochs : forall (R : rnd) g_ok f_ok (S : sch) (A : algo R) (vw : aview A) a p os rs e,
  rnd_ok R g_ok f_ok -> sch_ok S -> trains_well R (ca_states a) A vw -> clf_created a p -> clf_history S A vw p os rs e ->
  forall e' L nf X y ml n, clf_dims_of os rs = Some (L, nf) -> Forall (v_phys vw) X -> clf_partial_fit S A e X y ml n = Ret (S_OK, e') ->
  exists viss, length viss = n /\ Forall (fun vis => Permutation vis (zip X y)) viss /\
    clf_updates vw a L nf (concat viss) (e_fgen e, e_ta e) (e_fgen e', e_ta e').
Proof. intros * HR HS Hw Hc Hh * Hd HX E. exact (clf_more_trace g_ok f_ok HR S HS A vw a p os rs e e' L nf X y ml n Hw Hc Hh Hd HX E). Qed.
Print Assumptions C28_classifier_epochs.
Theorem C28_regressor_epochs : forall (R : rnd) g_ok f_ok (S : sch) (A : algo R) (vw : aview A) a p os rs e,
  rnd_ok R g_ok f_ok -> sch_ok S -> trains_well R (ra_states a) A vw -> reg_created a p -> reg_history S A vw p os rs e ->
  forall e' nf X y n, reg_dims_of os rs = Some nf -> Forall (v_phys vw) X -> reg_partial_fit S A e X y n = Ret (S_OK, e') ->
  exists viss, length viss = n /\ Forall (fun vis => Permutation vis (zip X y)) viss /\ reg_updates vw a nf (concat viss) (e_ta e) (e_ta e').
Proof. intros * HR HS Hw Hc Hh * Hd HX E. exact (reg_more_trace g_ok f_ok HR S HS A vw a p os rs e e' nf X y n Hw Hc Hh Hd HX E). Qed.
Print Assumptions C28_regressor_epochs.
(** fit is an initialisation (fit with 0 epochs) followed by such training *)
Theorem C28_fit_initialises_then_trains : forall (R : rnd) g_ok f_ok (S : sch) (A : algo R) (vw : aview A) a p os rs e,
  rnd_ok R g_ok f_ok -> sch_ok S -> tsetlini_algo R A vw -> clf_created a p -> clf_history S A vw p os rs e ->
  forall e' X y ml n, Forall (v_phys vw) X -> clf_fit S A e X y ml n = Ret (S_OK, e') ->
  exists e0, clf_fit S A e X y ml 0 = Ret (S_OK, e0) /\ clf_partial_fit S A e0 X y ml n = Ret (S_OK, e').
Proof. intros * HR HS HA Hc Hh * HX E. exact (clf_fit_is_init_and_train g_ok f_ok HR S HS A vw a p os rs e e' X y ml n HA Hc Hh HX E). Qed.
Print Assumptions C28_fit_initialises_then_trains.
Theorem C28_regressor_fit_initialises_then_trains : forall (R : rnd) g_ok f_ok (S : sch) (A : algo R) (vw : aview A) a p os rs e,
  rnd_ok R g_ok f_ok -> sch_ok S -> tsetlini_algo R A vw -> reg_created a p -> reg_history S A vw p os rs e ->
  forall e' X y n, Forall (v_phys vw) X -> reg_fit S A e X y n = Ret (S_OK, e') ->
  exists e0, reg_fit S A e X y 0 = Ret (S_OK, e0) /\ reg_partial_fit S A e0 X y n = Ret (S_OK, e').
Proof. intros * HR HS HA Hc Hh * HX E. exact (reg_fit_is_init_and_train g_ok f_ok HR S HS A vw a p os rs e e' X y n HA Hc Hh HX E). Qed.
Print Assumptions C28_regressor_fit_initialises_then_trains.
Example C28_example : exists e e', clf_history toy_sch CL (cl_view toy) toy_clf_params toy_fit1 [CRStatus S_OK] e /\
  clf_partial_fit toy_sch CL e toy_X toy_y 0 3 = Ret (S_OK, e') /\ ta_weights (e_ta e) <> ta_weights (e_ta e').
Proof. exact toy_more. Qed.

(** C29: the same user arguments with an explicit random_state on two machines (different hardware concurrency hw and random
    device rd), the same calls, any schedules: equal estimators and results. *)
Theorem C29_classifier_reproducible : forall (R : rnd) g_ok f_ok (A : algo R) (vw : aview A) S1 S2 u z hw1 rd1 hw2 rd2 p1 p2 os,
  rnd_ok R g_ok f_ok -> tsetlini_algo R A vw -> sch_ok S1 -> sch_ok S2 -> clf_typed u -> ca_seed u = Some z ->
  make_classifier_params_from_args hw1 rd1 u = Ret (Right p1) -> make_classifier_params_from_args hw2 rd2 u = Ret (Right p2) ->
  Forall (clf_op_phys A vw) os -> evaluates_ok S1 A vw None (construct S1 A p1) os ->
  orel (fun r1 r2 => r2.1 = r1.1 /\ same_estimator r1.2 r2.2)
    (clf_run S1 A (construct S1 A p1) os) (clf_run S2 A (construct S2 A p2) os).
Proof. intros * HR HA H1 H2 Ht Hz E1 E2 Ho He. exact (clf_schedule_free g_ok f_ok HR A vw HA S1 S2 _ _ p1 p2 os H1 H2
  (clf_factory_created hw1 rd1 u p1 Ht E1) (clf_factory_created hw2 rd2 u p2 Ht E2) (clf_same_args hw1 rd1 hw2 rd2 u p1 p2 z Hz E1 E2) Ho He). Qed.
Print Assumptions C29_classifier_reproducible.
Theorem C29_regressor_reproducible : forall (R : rnd) g_ok f_ok (A : algo R) (vw : aview A) S1 S2 u z hw1 rd1 hw2 rd2 p1 p2 os,
  rnd_ok R g_ok f_ok -> tsetlini_algo R A vw -> sch_ok S1 -> sch_ok S2 -> reg_typed u -> ra_seed u = Some z ->
  make_regressor_params_from_args hw1 rd1 u = Ret (Right p1) -> make_regressor_params_from_args hw2 rd2 u = Ret (Right p2) ->
  Forall (reg_op_phys A vw) os ->
  orel (fun r1 r2 => r2.1 = r1.1 /\ same_estimator r1.2 r2.2)
    (reg_run S1 A (construct S1 A p1) os) (reg_run S2 A (construct S2 A p2) os).
Proof. intros * HR HA H1 H2 Ht Hz E1 E2 Ho. exact (reg_schedule_free g_ok f_ok HR A vw HA S1 S2 _ _ p1 p2 os H1 H2
  (reg_factory_created hw1 rd1 u p1 Ht E1) (reg_factory_created hw2 rd2 u p2 Ht E2) (reg_same_args hw1 rd1 hw2 rd2 u p1 p2 z Hz E1 E2) Ho). Qed.
Print Assumptions C29_regressor_reproducible.
Example C29_example : clf_typed toy_clf_args /\ ca_seed toy_clf_args = Some 42 /\
  make_classifier_params_from_args 4 99 toy_clf_args = Ret (Right toy_clf_params) /\
  exists e, clf_history toy_sch CL (cl_view toy) toy_clf_params (toy_clf_ops CL toy_X) (toy_clf_res [0; 1; 0; 0] [0; 1; 1; 0]) e.
Proof. exact toy_seeded. Qed.

(** C42: with response r and target y, nothing happens when r = y; otherwise clauses picked one after another (at most as many as there
    are clauses, their number computed from the loss of the relative error) all get Type I feedback when r < y, all Type II when r > y. *)
Theorem C42_regressor_direction : forall (R : rnd) g_ok f_ok (S : sch) (A : algo R) (vw : aview A) a p os rs e e' nf x y,
  rnd_ok R g_ok f_ok -> sch_ok S -> trains_well R (ra_states a) A vw -> reg_created a p -> reg_history S A vw p os rs e ->
  reg_dims_of os rs = Some nf -> v_phys vw x -> reg_partial_fit S A e [x] [y] 1 = Ret (S_OK, e') ->
  let n := Z.to_nat (ra_clauses a / 2) in
  let fire := fires vw nf (e_ta e) x in
  let r := clamp 0 (ra_threshold a) (total_votes n fire (weight_of (ta_weights (e_ta e)))) in
  0 <= y <= ra_threshold a /\
  (r = y -> e_ta e' = e_ta e) /\
  (r < y -> exists js, pick_count (R := R) a (r - y) (length js) /\ (length js <= n)%nat /\ reg_picks vw a nf x 1 fire js (e_ta e) (e_ta e')) /\
  (y < r -> exists js, pick_count (R := R) a (r - y) (length js) /\ (length js <= n)%nat /\ reg_picks vw a nf x (-1) fire js (e_ta e) (e_ta e')).
Proof. intros * HR HS Hw Hc Hh Hd Hx E. exact (reg_direction g_ok f_ok HR S HS A vw a p os rs e e' nf x y Hw Hc Hh Hd Hx E). Qed.
Print Assumptions C42_regressor_direction.
Example C42_example : exists e e1 e2, reg_history toy_sch CL (cl_view toy) toy_reg_params toy_rfit6 [RRStatus S_OK] e /\
  reg_dims_of toy_rfit6 [RRStatus S_OK] = Some 3%nat /\ ta_weights (e_ta e) = [1; 4] /\
  reg_partial_fit toy_sch CL e [[0; 1; 1]] [5] 1 = Ret (S_OK, e1) /\
  train_response (cl_view toy) toy_ra 3 (e_ta e) [0; 1; 1] = 2 /\ ta_weights (e_ta e1) = [2; 4] /\
  reg_partial_fit toy_sch CL e [[1; 1; 0]] [0] 1 = Ret (S_OK, e2) /\
  train_response (cl_view toy) toy_ra 3 (e_ta e) [1; 1; 0] = 5 /\ ta_weights (e_ta e2) = [1; 3].
Proof. exact toy_reg_step. Qed.
