(** * Property theorems about numbers and totality: C10, C19 (thresholds), C39, C43, C44, C47.  Reading guide: see PropsPredict.v.
    [fin32 x] : x is a finite IEEE binary32 number, [val x] its real value.  [f_gt x y] : the C++ comparison x > y.
    [f32_one] is 1.0f, [S754_zero false] is +0.0f. *)
From Verif Require Import LossFacts FloatProps TotalFacts TotalProps ToyFloat StepFacts BoxMullerFacts.
From Coq Require Import Reals.
From Flocq Require Import Core.Core.
From stdpp Require Import list.
Local Open Scope Z_scope.

(** C10: on valid samples evaluate returns the fraction of predictions that equal y, to within 2^-20, exactly 1 when all are right and
    exactly 0 when all are wrong.  [agreements ys y] : number of positions at which the two lists agree. *)
Theorem C10_evaluate_is_the_accuracy : forall (R : rnd) g_ok f_ok (S : sch) (A : algo R) (vw : aview A) a p os rs e L nf X y,
  rnd_ok R g_ok f_ok -> sch_ok S -> tsetlini_algo R A vw -> clf_created a p -> clf_history S A vw p os rs e ->
  clf_dims_of os rs = Some (L, nf) ->
  X <> [] -> Forall (v_phys vw) X -> Forall (v_ok vw nf) X -> length y = length X -> Z.of_nat (length X) <= int_max ->
  exists ys e1 v e2, clf_predict S A e X = Ret (Right ys, e1) /\ length ys = length X /\ clf_evaluate S A e X y = Ret (Right v, e2) /\
    fin32 v /\ (0 <= val v <= 1)%R /\
    (Rabs (val v - INR (agreements ys y) / INR (length X)) <= / 1048576)%R /\
    (ys = y -> v = f32_one) /\ (Forall2 (fun p q => p <> q) ys y -> v = S754_zero false).
Proof. intros * HR HS HA. exact (evaluate_accuracy g_ok f_ok HR S HS A vw HA a p os rs e L nf X y). Qed.
Print Assumptions C10_evaluate_is_the_accuracy.
Example C10_example : exists e, clf_history toy_sch CL (cl_view toy) toy_clf_params (toy_clf_ops CL toy_X) (toy_clf_res [0; 1; 0; 0] [0; 1; 1; 0]) e /\
  clf_dims_of (toy_clf_ops CL toy_X) (toy_clf_res [0; 1; 0; 0] [0; 1; 1; 0]) = Some (2%nat, 3%nat) /\ Forall (v_ok (cl_view toy) 3) toy_X /\
  results (clf_predict toy_sch CL e toy_X) = Some (Right [0; 1; 1; 0]) /\
  results (clf_evaluate toy_sch CL e toy_X [0; 1; 1; 1]) = Some (Right f32_34) /\
  results (clf_evaluate toy_sch CL e toy_X [0; 1; 1; 0]) = Some (Right f32_one) /\
  results (clf_evaluate toy_sch CL e toy_X [1; 0; 0; 3]) = Some (Right (S754_zero false)).
Proof. exact toy_evaluate. Qed.

(** C19, thresholds: with votes v in [-T, T] the selection threshold of C19_who_gets_feedback is (T - v) / 2T for the sample's label and
    (T + v) / 2T for the opposite one, up to a relative error of 2^-20; it is a zero for v = T, resp. v = -T. *)
Theorem C19_target_threshold : forall T v, 1 <= T < 1073741824 -> - T <= v <= T ->
  let thr := f32_mul (f32_div f32_one (f32_of_Z (T * 2))) (f32_of_Z (T - v)) in
  fin32 thr /\ (Rabs (val thr - IZR (T - v) / IZR (T * 2)) <= IZR (T - v) / IZR (T * 2) / 1048576)%R /\ (v = T -> exists s, thr = S754_zero s).
Proof. exact target_thr_spec. Qed.
Print Assumptions C19_target_threshold.
Theorem C19_opposite_threshold : forall T v, 1 <= T < 1073741824 -> - T <= v <= T ->
  let thr := f32_mul (f32_div f32_one (f32_of_Z (T * 2))) (f32_of_Z (T + v)) in
  fin32 thr /\ (Rabs (val thr - IZR (T + v) / IZR (T * 2)) <= IZR (T + v) / IZR (T * 2) / 1048576)%R /\ (v = - T -> exists s, thr = S754_zero s).
Proof. exact opposite_thr_spec. Qed.
Print Assumptions C19_opposite_threshold.
(** C19, saturation: when the votes of the sample's label have reached T none of its clauses is touched, when those of the opposite
    label have reached -T none of its clauses is. *)
Theorem C19_saturated_label_is_left_alone : forall (R : rnd) g_ok f_ok (S : sch) (A : algo R) (vw : aview A) a p os rs e e' L nf x t ml,
  rnd_ok R g_ok f_ok -> sch_ok S -> trains_well R (ca_states a) A vw -> clf_created a p -> clf_history S A vw p os rs e ->
  clf_dims_of os rs = Some (L, nf) -> v_phys vw x -> ca_threshold a < 1073741824 -> clf_partial_fit S A e [x] [t] ml 1 = Ret (S_OK, e') ->
  let n := Z.to_nat (ca_clauses a / 2) in
  let T := ca_threshold a in
  let o := opposite (Z.to_nat t) L (g_next R (e_igen e)).1 in
  let votes l := clamp (- T) T (signed_votes n (fun i => fires vw nf (e_ta e) x (l * n + i)) (fun i => weight_of (ta_weights (e_ta e)) (l * n + i))) in
  (votes (Z.to_nat t) = T -> forall i, (i < n)%nat -> clause_untouched vw nf (Z.to_nat t * n + i) (e_ta e) (e_ta e')) /\
  (votes o = - T -> forall i, (i < n)%nat -> clause_untouched vw nf (o * n + i) (e_ta e) (e_ta e')).
Proof. intros * HR HS. exact (saturated_step g_ok f_ok HR S HS A vw a p os rs e e' L nf x t ml). Qed.
Print Assumptions C19_saturated_label_is_left_alone.
Example C19_saturation_example : exists e, clf_history toy_sch CL (cl_view toy) sat_params [CFit CL toy_X toy_y 0 3] [CRStatus S_OK] e /\
  clf_dims_of [CFit CL toy_X toy_y 0 3] [CRStatus S_OK] = Some (2%nat, 3%nat) /\
  sat_votes e [0; 1; 1] 1 = 1 /\ results (clf_partial_fit toy_sch CL e [[0; 1; 1]] [1] 0 1) = Some S_OK /\
  sat_votes e [1; 0; 0] 0 = -1 /\ results (clf_partial_fit toy_sch CL e [[1; 0; 0]] [1] 0 1) = Some S_OK.
Proof. exact sat_example. Qed.

(** C39: a coin tosser made for nf <= 2^24 features and specificity s, whatever it tossed before, yields a 0/1 vector of length nf whose
    number of ones is an m rounded down or up, where m is nf / s up to a relative error of 2^-22, and at most nf; it fails to
    terminate only if the draws ([covers]: the first [tfuel R] of them, a number the theorem leaves open) miss some position. *)
Theorem C39_toss_vectors : forall (R : rnd) g_ok f_ok s nf ct0 ct cache g,
  rnd_ok R g_ok f_ok -> fin32 s -> (1 <= val s)%R -> Z.of_nat nf <= 16777216 -> g_ok g ->
  ct_make (f32_div f32_one s) (Z.of_nat nf) = Ret ct0 -> same_rate ct0 ct -> ct_len nf ct -> length cache = nf ->
  match ct_tosses_ R ct cache g with
  | Ret (c, _) => length c = nf /\ Forall (fun v => v = 0 \/ v = 1) c /\
      exists m : Rdefinitions.R, (Rabs (m - INR nf / val s) <= INR nf / val s / 4194304 + bpow radix2 (-100))%R /\
        (Z.of_nat (count_ones c) = Zfloor m \/ Z.of_nat (count_ones c) = Zceil m) /\ (count_ones c <= nf)%nat
  | OutOfFuel => ~ covers R nf (g_next R g).2
  | _ => False
  end.
Proof. exact toss_vector_match. Qed.
Print Assumptions C39_toss_vectors.
(** such a tosser exists, and its numbers of ones are those training works with (C17: [toss_count]) *)
Theorem C39_tosser_is_made : forall s nf, fin32 s -> (1 <= val s)%R -> Z.of_nat nf <= int_max ->
  exists ct, ct_make (f32_div f32_one s) (Z.of_nat nf) = Ret ct /\ ct_len nf ct.
Proof. exact tosser_made. Qed.
Print Assumptions C39_tosser_is_made.
Theorem C39_training_tosses : forall a nf h, clf_valid a -> Z.of_nat nf <= 16777216 -> toss_count (ca_s a) nf h ->
  exists m : Rdefinitions.R, (Rabs (m - INR nf / val (ca_s a)) <= INR nf / val (ca_s a) / 4194304 + bpow radix2 (-100))%R /\
    (h = Zfloor m \/ h = Zceil m) /\ 0 <= h <= Z.of_nat nf.
Proof. intros a nf h [Ht Ha _]. exact (toss_count_hits (ca_s a) nf h (ct_real _ Ht) (cv_s _ Ha)). Qed.
Print Assumptions C39_training_tosses.
(** any stream that visits every position ends the rejection loop *)
Theorem C39_tosses_terminate : forall (R : rnd) g_ok f_ok s (nf : nat) ct0 ct cache g,
  rnd_ok R g_ok f_ok -> fin32 s -> (1 <= val s)%R -> Z.of_nat nf <= 16777216 -> g_ok g ->
  ct_make (f32_div f32_one s) (Z.of_nat nf) = Ret ct0 -> same_rate ct0 ct -> ct_len nf ct -> length cache = nf ->
  (forall k, (k < nf)%nat -> exists i, g_draw R (g_next R g).2 i mod Z.of_nat nf = Z.of_nat k) ->
  exists n c g', ct_tosses_ (with_fuel R n) ct cache g = Ret (c, g').
Proof. exact toss_terminates. Qed.
Print Assumptions C39_tosses_terminate.
Example C39_example : exists ct, ct_make (f32_div f32_one (f32_of_Z 3)) 10 = Ret ct /\ ct_floor ct = 3 /\ 0 < ct_thr ct /\ ct_len 10 ct /\
  results (ct_tosses_ toy ct (replicate 10 7) 5) = Some [1; 0; 0; 0; 0; 0; 1; 1; 1; 0].
Proof. exact toy_tosses. Qed.
(** The bound 2^24 is needed: for 16777219 features and s = 1 the loop never ends, whatever is drawn. *)
Theorem C39_beyond_2_24_features_refuted : forall (R : rnd) g_ok f_ok (nf : nat) g, rnd_ok R g_ok f_ok -> Z.of_nat nf = 16777219 -> g_ok g ->
  exists ct, ct_make (f32_div f32_one f32_one) (Z.of_nat nf) = Ret ct /\ forall cache, length cache = nf -> ct_tosses_ R ct cache g = OutOfFuel.
Proof. intros R g_ok f_ok nf g HR. exact (toss_stuck g_ok f_ok HR nf g). Qed.
Print Assumptions C39_beyond_2_24_features_refuted.

(** C43: for an accepted parameter set without box_muller, and with 0 <= C1 <= 1 when the loss is L1+2 ([loss_bounds]), the number of
    feedbacks of an update is computed without undefined behaviour, for every error and state of the generator, and lies between 0
    and the number of clauses. *)
Theorem C43_feedback_count_is_defined : forall (R : rnd) a err loss (g : eG R), reg_valid a ->
  ra_box_muller a = false -> (ra_loss a = "L1+2"%string -> is_finite_sf (ra_C1 a) = true /\ (0 <= val (ra_C1 a) <= 1)%R) ->
  make_loss_fn (ra_loss a) (ra_C1 a) = Ret loss -> - ra_threshold a <= err <= ra_threshold a ->
  exists h g', feedback_hits (R := R) (ra_box_muller a) (ra_clauses a / 2) (loss (f32_div (f32_of_Z err) (f32_of_Z (ra_threshold a)))) g = Ret (h, g') /\
    0 <= h <= ra_clauses a / 2.
Proof. intros R a err loss g Ha Hb Hc. exact (reg_count_defined (R := R) a err loss g Ha (rva_typed _ Ha) (conj Hb Hc)). Qed.
Print Assumptions C43_feedback_count_is_defined.
(** It is within one of clauses times loss of the relative error, for the losses that are probabilities ([loss_sound]: MAE, L1, MSE, L2, and
    L1+2 with 0 <= C1 <= 1) and up to 2^21 clauses. [pick_count] : the number of clauses a regressor update picks, see C42. *)
Theorem C43_feedback_count_is_proportional : forall (R : rnd) a err k, reg_valid a -> loss_sound a -> ra_box_muller a = false ->
  ra_clauses a <= 2097152 -> - ra_threshold a <= err <= ra_threshold a -> pick_count (R := R) a err k ->
  exists loss x, make_loss_fn (ra_loss a) (ra_C1 a) = Ret loss /\ fin32 x /\ (-1 <= val x <= 1)%R /\
    (Rabs (val x - IZR err / IZR (ra_threshold a)) <= / 1048576)%R /\ (0 <= val (loss x) <= 1)%R /\
    (Rabs (INR k - IZR (ra_clauses a / 2) * val (loss x)) <= 1)%R.
Proof. intros R a err k Ha. exact (pick_close (R := R) a err k Ha (rva_typed _ Ha)). Qed.
Print Assumptions C43_feedback_count_is_proportional.
Example C43_example : reg_valid toy_ra /\ loss_sound toy_ra /\ exists loss, make_loss_fn (ra_loss toy_ra) (ra_C1 toy_ra) = Ret loss /\
  results (feedback_hits (R := toy) (ra_box_muller toy_ra) (ra_clauses toy_ra / 2) (loss (f32_div (f32_of_Z (-4)) (f32_of_Z (ra_threshold toy_ra)))) 5) = Some 1.
Proof. split; [exact (rc_valid _ _ toy_reg_created)|]. split; [left; auto|]. exact toy_hits. Qed.
(** The exceptions are real: with two clauses, loss 0.5 and draw 0x7f00 the box_muller approximation converts a negative float to unsigned
    (entries of the code's tables: [bm_entry1] = 3.331389, [bm_entry2] = -0.999925); and L1+2 with C1 = 1e20 overflows the conversion. *)
Theorem C43_box_muller_refuted : forall (R : rnd) (g : eG R), bm1 R 0 = bm_entry1 -> bm2 R 127 = bm_entry2 -> (g_next R g).1 = 32512 ->
  feedback_hits (R := R) true 2 f32_half_ g = UB FloatToInt.
Proof. exact @box_muller_ub. Qed.
Print Assumptions C43_box_muller_refuted.
(** With box_muller on, where the line runs.  [bm_tables R] : the two tables of 256 floats hold sqrt(-2 ln((1+i)/257)) and cos(2 pi (1+i)/257)
    up to 10^-5.  n clauses per polarity, p the loss of the relative error, [mean n p] = n p, [deviation n p] = sqrt (n p (1 - p)):
    as long as mean - 3.34 deviation is at least -0.49 the count is defined for every draw, takes one draw, is within 0 and n, and within
    3.34 deviations plus 1 of the mean. *)
Theorem C43_box_muller_defined : forall (R : rnd) a err loss (g : eG R), bm_tables R -> reg_valid a -> loss_sound a -> ra_box_muller a = true ->
  ra_clauses a <= 2097152 -> make_loss_fn (ra_loss a) (ra_C1 a) = Ret loss -> - ra_threshold a <= err <= ra_threshold a ->
  let n := ra_clauses a / 2 in let p := loss (f32_div (f32_of_Z err) (f32_of_Z (ra_threshold a))) in
  (mean n p - 334 / 100 * deviation n p >= - (49 / 100))%R ->
  exists h, feedback_hits (R := R) (ra_box_muller a) n p g = Ret (h, (g_next R g).2) /\ 0 <= h <= n /\
    (Rabs (IZR h - mean n p) <= 334 / 100 * deviation n p + 1)%R.
Proof. exact @reg_box_muller_defined. Qed.
Print Assumptions C43_box_muller_defined.
(** And when mean - 3.33 deviation is at most -0.51, every draw whose low 16 bits are 0x7f00 has undefined behaviour. *)
Theorem C43_box_muller_undefined_refuted : forall (R : rnd) a err loss (g : eG R), bm_tables R -> reg_valid a -> loss_sound a -> ra_box_muller a = true ->
  ra_clauses a <= 2097152 -> make_loss_fn (ra_loss a) (ra_C1 a) = Ret loss -> - ra_threshold a <= err <= ra_threshold a ->
  let n := ra_clauses a / 2 in let p := loss (f32_div (f32_of_Z err) (f32_of_Z (ra_threshold a))) in
  (mean n p - 333 / 100 * deviation n p <= - (51 / 100))%R -> (g_next R g).1 mod 65536 = 32512 ->
  feedback_hits (R := R) (ra_box_muller a) n p g = UB FloatToInt.
Proof. exact @reg_box_muller_undefined. Qed.
Print Assumptions C43_box_muller_undefined_refuted.
(** 100 clauses, threshold 16, loss MAE: error 8 is on the safe side, error 1 on the other. *)
Example C43_box_muller_example : bm_tables bm_rnd /\
  (reg_valid bm_a /\ loss_sound bm_a /\ ra_box_muller bm_a = true /\ ra_clauses bm_a / 2 = 50 /\ ra_threshold bm_a = 16) /\
  forall loss, make_loss_fn (ra_loss bm_a) (ra_C1 bm_a) = Ret loss ->
  let p err := loss (f32_div (f32_of_Z err) (f32_of_Z (ra_threshold bm_a))) in
  (mean 50 (p 8%Z) = 25 /\ mean 50 (p 8%Z) - 334 / 100 * deviation 50 (p 8%Z) >= - (49 / 100))%R /\
  (mean 50 (p 1%Z) = 3125 / 1000 /\ mean 50 (p 1%Z) - 333 / 100 * deviation 50 (p 1%Z) <= - (51 / 100))%R /\ (g_next bm_rnd 32512).1 mod 65536 = 32512.
Proof. exact (conj bm_rnd_tables (conj bm_a_valid bm_example)). Qed.
Theorem C43_large_C1_refuted : forall (R : rnd) (g : eG R) loss, make_loss_fn "L1+2" (f32_of_Z (10 ^ 20)) = Ret loss ->
  feedback_hits (R := R) false 2 (loss f32_half_) g = UB FloatToInt.
Proof. exact @l12_ub. Qed.
Print Assumptions C43_large_C1_refuted.

(** C44: the losses MAE = L1 and MSE = L2 map a finite number in [-1, 1] to a probability, which does not depend on its sign, grows with
    its size, is 0 at 0 and 1 at 1; L1+2 too when 0 <= C1 <= 1.  [loss_fine] : in [0, 1]; monotone in |x|; 0 at 0. *)
Theorem C44_plain_losses : forall name C1 loss, make_loss_fn name C1 = Ret loss -> (name = "MAE" \/ name = "L1" \/ name = "MSE" \/ name = "L2")%string ->
  (forall x, fin32 x -> (Rabs (val x) <= 1)%R -> fin32 (loss x) /\ (0 <= val (loss x) <= 1)%R) /\
  (forall x y, fin32 x -> fin32 y -> (Rabs (val x) <= 1)%R -> val y = (- val x)%R -> val (loss y) = val (loss x)) /\
  (forall x y, fin32 x -> fin32 y -> (Rabs (val x) <= Rabs (val y) <= 1)%R -> (val (loss x) <= val (loss y))%R) /\
  (forall x, fin32 x -> val x = 0%R -> val (loss x) = 0%R) /\
  (forall x, fin32 x -> Rabs (val x) = 1%R -> val (loss x) = 1%R).
Proof.
  intros name C1 loss E Hn. destruct (plain_losses name C1 loss E Hn) as [H H1].
  exact (conj (lf_fin _ H) (conj (fun x y => lf_even loss x y H) (conj (lf_mono _ H) (conj (lf_zero _ H) H1)))).
Qed.
Print Assumptions C44_plain_losses.
Theorem C44_mixed_loss : forall C1 loss, make_loss_fn "L1+2" C1 = Ret loss -> fin32 C1 -> (0 <= val C1 <= 1)%R ->
  (forall x, fin32 x -> (Rabs (val x) <= 1)%R -> fin32 (loss x) /\ (0 <= val (loss x) <= 1)%R) /\
  (forall x y, fin32 x -> fin32 y -> (Rabs (val x) <= 1)%R -> val y = (- val x)%R -> val (loss y) = val (loss x)) /\
  (forall x y, fin32 x -> fin32 y -> (Rabs (val x) <= Rabs (val y) <= 1)%R -> (val (loss x) <= val (loss y))%R) /\
  (forall x, fin32 x -> val x = 0%R -> val (loss x) = 0%R).
Proof.
  intros C1 loss E HC HC'. pose proof (mixed_loss C1 loss E HC HC') as H.
  exact (conj (lf_fin _ H) (conj (fun x y => lf_even loss x y H) (conj (lf_mono _ H) (lf_zero _ H)))).
Qed.
Print Assumptions C44_mixed_loss.
Example C44_example : exists loss, make_loss_fn "MSE" f32_one = Ret loss /\ loss f32_half_ = f32_div f32_one (f32_of_Z 4) /\
  fin32 f32_half_ /\ loss (f32_of_Z (-1)) = f32_one.
Proof. eexists. split; [reflexivity|]. split; [vm_compute; reflexivity|]. split; [split; vm_compute; reflexivity|vm_compute; reflexivity]. Qed.
(** berHu is no such function: for C1 = 0.5 the loss of 0.6 is negative, and smaller than that of 0.5. *)
Theorem C44_berhu_refuted : forall loss, make_loss_fn "berHu" f32_half_ = Ret loss ->
  f_lt (loss f32_06) (S754_zero false) = true /\ f_lt (loss f32_06) (loss f32_half_) = true /\ f_lt f32_half_ f32_06 = true /\ f_lt f32_06 f32_one = true.
Proof. exact berhu_bad. Qed.
Print Assumptions C44_berhu_refuted.

(** C47.  [sizes_fit rows nf] : rows * (nf + 64) < 2^30.  [tossable g_ok n] : at most 2^24 features, and from every generator state every
    residue modulo n occurs among the draws ([fair]).  [n_labels y ml] : the larger of ml and the greatest label plus one.
    [good_samples nf X y] : X is not empty, has as many samples as there are labels, all valid with nf features. *)
Theorem C47_classifier_fit_succeeds : forall (R : rnd) g_ok f_ok (S : sch) (A : algo R) (vw : aview A) a p os rs e nf X y ml n,
  rnd_ok R g_ok f_ok -> sch_ok S -> tsetlini_algo R A vw -> clf_created a p -> clf_history S A vw p os rs e ->
  old_tossable g_ok (snd <$> clf_dims_of os rs) -> tossable g_ok nf ->
  good_samples A vw nf X y -> Forall (fun v => 0 <= v < int_max) y -> 2 <= n_labels y ml -> ca_threshold a < 1073741824 ->
  sizes_fit (n_labels y ml * ca_clauses a) (Z.of_nat nf) ->
  exists e', clf_fit S A e X y ml n = Ret (S_OK, e') /\
    forall x, v_phys vw x -> v_ok vw nf x -> exists l e2, clf_predict1 S A e' x = Ret (Right l, e2) /\ 0 <= l < n_labels y ml.
Proof. intros * HR HS HA Hc. exact (clf_fit_succeeds g_ok f_ok HR S HS A vw HA a p os rs e nf X y ml n Hc (cva_typed _ (cc_valid _ _ Hc))). Qed.
Print Assumptions C47_classifier_fit_succeeds.
Theorem C47_classifier_partial_fit_succeeds : forall (R : rnd) g_ok f_ok (S : sch) (A : algo R) (vw : aview A) a p os rs e L nf X y ml n,
  rnd_ok R g_ok f_ok -> sch_ok S -> tsetlini_algo R A vw -> clf_created a p -> clf_history S A vw p os rs e ->
  clf_dims_of os rs = Some (L, nf) -> tossable g_ok nf ->
  good_samples A vw nf X y -> Forall (fun v => 0 <= v < Z.of_nat L) y -> (2 <= L)%nat -> ca_threshold a < 1073741824 ->
  exists e', clf_partial_fit S A e X y ml n = Ret (S_OK, e') /\
    forall x, v_phys vw x -> v_ok vw nf x -> exists l e2, clf_predict1 S A e' x = Ret (Right l, e2) /\ 0 <= l < Z.of_nat L.
Proof. intros * HR HS HA Hc. exact (clf_more_succeeds g_ok f_ok HR S HS A vw HA a p os rs e L nf X y ml n Hc (cva_typed _ (cc_valid _ _ Hc))). Qed.
Print Assumptions C47_classifier_partial_fit_succeeds.
Theorem C47_regressor_fit_succeeds : forall (R : rnd) g_ok f_ok (S : sch) (A : algo R) (vw : aview A) a p os rs e nf X y n,
  rnd_ok R g_ok f_ok -> sch_ok S -> tsetlini_algo R A vw -> reg_created a p -> reg_history S A vw p os rs e ->
  old_tossable g_ok (reg_dims_of os rs) -> tossable g_ok nf -> loss_bounds a ->
  good_samples A vw nf X y -> Forall (fun v => 0 <= v <= ra_threshold a) y -> sizes_fit (ra_clauses a) (Z.of_nat nf) ->
  exists e', reg_fit S A e X y n = Ret (S_OK, e') /\
    forall x, v_phys vw x -> v_ok vw nf x -> exists v e2, reg_predict1 S A e' x = Ret (Right v, e2) /\ 0 <= v <= ra_threshold a.
Proof. intros * HR HS HA Hc. exact (reg_fit_succeeds g_ok f_ok HR S HS A vw HA a p os rs e nf X y n Hc (rva_typed _ (rc_valid _ _ Hc))). Qed.
Print Assumptions C47_regressor_fit_succeeds.
Theorem C47_regressor_partial_fit_succeeds : forall (R : rnd) g_ok f_ok (S : sch) (A : algo R) (vw : aview A) a p os rs e nf X y n,
  rnd_ok R g_ok f_ok -> sch_ok S -> tsetlini_algo R A vw -> reg_created a p -> reg_history S A vw p os rs e ->
  reg_dims_of os rs = Some nf -> tossable g_ok nf -> loss_bounds a ->
  good_samples A vw nf X y -> Forall (fun v => 0 <= v <= ra_threshold a) y ->
  exists e', reg_partial_fit S A e X y n = Ret (S_OK, e') /\
    forall x, v_phys vw x -> v_ok vw nf x -> exists v e2, reg_predict1 S A e' x = Ret (Right v, e2) /\ 0 <= v <= ra_threshold a.
Proof. intros * HR HS HA Hc. exact (reg_more_succeeds g_ok f_ok HR S HS A vw HA a p os rs e nf X y n Hc (rva_typed _ (rc_valid _ _ Hc))). Qed.
Print Assumptions C47_regressor_partial_fit_succeeds.
(** Without any assumption on the draws, and for valid or invalid data: no call within the numeric bounds ([clf_bounds], [reg_bounds] in
    TotalFacts.v) indexes out of bounds, overflows, divides by zero, converts out of range or throws. *)
Theorem C47_classifier_calls_are_defined : forall (R : rnd) g_ok f_ok (S : sch) (A : algo R) (vw : aview A) a p os rs e o,
  rnd_ok R g_ok f_ok -> sch_ok S -> tsetlini_algo R A vw -> clf_created a p -> clf_history S A vw p os rs e ->
  clf_op_phys A vw o -> clf_bounds A vw a (clf_dims_of os rs) o -> clf_wide A (fun n => Z.of_nat n <= int_max) (clf_dims_of os rs) o ->
  match clf_step S A e o with UB _ | Throw _ => False | _ => True end.
Proof. intros * HR HS HA Hc. exact (clf_fine g_ok f_ok HR S HS A vw HA a p os rs e o Hc (cva_typed _ (cc_valid _ _ Hc))). Qed.
Print Assumptions C47_classifier_calls_are_defined.
Theorem C47_regressor_calls_are_defined : forall (R : rnd) g_ok f_ok (S : sch) (A : algo R) (vw : aview A) a p os rs e o,
  rnd_ok R g_ok f_ok -> sch_ok S -> tsetlini_algo R A vw -> reg_created a p -> reg_history S A vw p os rs e ->
  reg_op_phys A vw o -> reg_bounds A vw a (reg_dims_of os rs) o -> reg_wide A (fun n => Z.of_nat n <= int_max) (reg_dims_of os rs) o ->
  match reg_step S A e o with UB _ | Throw _ => False | _ => True end.
Proof. intros * HR HS HA Hc. exact (reg_fine g_ok f_ok HR S HS A vw HA a p os rs e o Hc (rva_typed _ (rc_valid _ _ Hc))). Qed.
Print Assumptions C47_regressor_calls_are_defined.
(** a counting generator meets the assumption on draws; the toy data the others *)
Example C47_example : rnd_ok cnt cnt_g toy_f /\ clf_history toy_sch (classic cnt) (cl_view cnt) toy_clf_params [] [] (construct toy_sch (classic cnt) toy_clf_params) /\
  tossable (R := cnt) cnt_g 3 /\ good_samples (classic cnt) (cl_view cnt) 3 toy_X toy_y /\ Forall (fun v => 0 <= v < int_max) toy_y /\
  2 <= n_labels toy_y 0 /\ ca_threshold toy_a < 1073741824 /\ sizes_fit (n_labels toy_y 0 * ca_clauses toy_a) 3.
Proof. exact (conj cnt_ok (conj cnt_history (conj (cnt_tossable 3 ltac:(lia)) cnt_good))). Qed.
