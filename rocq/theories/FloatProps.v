(** * Consequences of the floating point facts for the public calls. *)
From Verif Require Import HistFacts LossFacts TotalFacts StepFacts.
From Coq Require Import Reals Psatz.
From Flocq Require Import Core.Core.
From stdpp Require Import list.
Local Open Scope Z_scope.

(** number of positions at which two lists agree *)
Fixpoint agreements (xs ys : list Z) : nat :=
  match xs, ys with x :: xs', y :: ys' => ((if Z.eqb x y then 1 else 0) + agreements xs' ys')%nat | _, _ => O end.

Lemma agreements_le xs ys : (agreements xs ys <= length xs)%nat.
Proof. revert ys. induction xs as [|x xs IH]; intros [|y ys]; cbn; try lia. specialize (IH ys). destruct (x =? y); lia. Qed.
Lemma agreements_self xs : agreements xs xs = length xs.
Proof. induction xs as [|x xs IH]; cbn; [done|]. rewrite Z.eqb_refl. lia. Qed.
Lemma agreements_none xs ys : Forall2 (fun x y => x <> y) xs ys -> agreements xs ys = O.
Proof. induction 1 as [|x y xs ys H _ IH]; cbn; [done|]. destruct (Z.eqb_spec x y); [done|lia]. Qed.
Lemma mismatch_count {X} (f : X -> Z) (xs : list X) (ys : list Z) : length ys = length xs ->
  length (filter (fun '(x, yi) => f x <> yi) (zip xs ys)) = (length xs - agreements (f <$> xs) ys)%nat.
Proof.
  revert ys. induction xs as [|x xs IH]; intros [|y ys] H; try done. injection H as H. cbn [zip zip_with].
  rewrite filter_cons. pose proof (agreements_le (f <$> xs) ys) as Hle. rewrite fmap_length in Hle.
  destruct (decide (f x <> y)) as [Hd|Hd]; cbn [length agreements fmap list_fmap]; specialize (IH ys H); cbn [fmap list_fmap] in *;
    unfold fmap in *; rewrite IH; destruct (Z.eqb_spec (f x) y); try done; lia.
Qed.

Section Eval.
  Context {R : rnd} (g_ok : eG R -> Prop) (f_ok : eF R -> Prop) (HR : rnd_ok R g_ok f_ok).
  Context (S : sch) (HS : sch_ok S).
  Context (A : algo R) (vw : aview A) (HA : tsetlini_algo R A vw).

  Lemma evaluate_accuracy a p os rs e L nf X y : clf_created a p -> clf_history S A vw p os rs e -> clf_dims_of os rs = Some (L, nf) ->
    X <> [] -> Forall (v_phys vw) X -> Forall (v_ok vw nf) X -> length y = length X -> Z.of_nat (length X) <= int_max ->
    exists ys e1 v e2, clf_predict S A e X = Ret (Right ys, e1) /\ length ys = length X /\ clf_evaluate S A e X y = Ret (Right v, e2) /\
      fin32 v /\ (0 <= val v <= 1)%R /\
      (Rabs (val v - INR (agreements ys y) / INR (length X)) <= / 1048576)%R /\
      (ys = y -> v = f32_one) /\ (Forall2 (fun p q => p <> q) ys y -> v = S754_zero false).
  Proof.
    intros Hc Hh Hd Hne Hph Hok Hl Hn.
    destruct (clf_predict_answer g_ok f_ok HR S HS A vw HA a p os rs e Hc Hh X Hph) as (r & e1 & E1 & An).
    rewrite Hd in An. cbn [clf_answer] in An. destruct An as [[_ An]|[Hb _]]; [|by destruct Hb].
    assert (r = Right (clf_label vw a L nf (e_ta e) <$> X)) as -> by congruence.
    destruct (clf_hist_laws g_ok f_ok HR A vw HA a (cc_valid _ _ Hc)) as (I & Ea & Eb & E2 & Lw).
    pose proof (clf_history_at g_ok f_ok HR S HS A vw _ _ I Ea Eb E2 Lw a p os rs e Hc eq_refl eq_refl Hh) as Hat.
    specialize (Lw True True). pose proof (cc_valid _ _ Hc) as Ha. rewrite Hd in Hat. destruct Hat as [Hf _].
    destruct (clf_evaluate_spec g_ok f_ok S HS A vw True True _ _ I Ea Eb E2 Lw a L nf Ha e Hf X y Hok) as (c & Ev & _); [lia|done|].
    set (ys := clf_label vw a L nf (e_ta e) <$> X) in *.
    assert (length ys = length X) as Hys by apply fmap_length.
    eexists ys, e1, _, (with_cache S A c e). split; [done|]. split; [done|]. split; [exact Ev|].
    unfold mismatches. rewrite mismatch_count by done. fold ys. pose proof (agreements_le ys y) as Hle.
    assert (0 < length X)%nat as Hpos by (destruct X; cbn; [done|lia]).
    destruct (acc32_spec (Z.of_nat (length X - agreements ys y)) (Z.of_nat (length X))) as (H1 & H2 & H3 & H4 & H5); [lia..|].
    change (accuracy32 ?k ?n) with (acc32 k n).
    set (v := acc32 _ _) in *. clearbody v.
    split; [done|]. split; [done|]. split; [|split].
    - rewrite Nat2Z.inj_sub, minus_IZR, <- !INR_IZR_INZ in H3 by lia.
      replace (INR (agreements ys y) / INR (length X))%R with (1 - (INR (length X) - INR (agreements ys y)) / INR (length X))%R; [done|].
      field. apply not_0_INR. lia.
    - intros <-. apply H4. rewrite agreements_self. lia.
    - intros Hall. apply H5. rewrite (agreements_none _ _ Hall). lia.
  Qed.
End Eval.

(** ** Selection thresholds *)
Lemma target_thr_spec T v : 1 <= T < 1073741824 -> - T <= v <= T ->
  fin32 (target_thr T v) /\ (Rabs (val (target_thr T v) - IZR (T - v) / IZR (T * 2)) <= IZR (T - v) / IZR (T * 2) / 1048576)%R /\
  (v = T -> exists s, target_thr T v = S754_zero s).
Proof.
  intros HT Hv. destruct (ratio_spec (T * 2) (T - v)) as (H1 & H2 & H3); [unfold int_max; lia|lia|].
  split; [exact H1|]. split; [exact H2|]. intros ->. apply H3. lia.
Qed.
Lemma opposite_thr_spec T v : 1 <= T < 1073741824 -> - T <= v <= T ->
  fin32 (opposite_thr T v) /\ (Rabs (val (opposite_thr T v) - IZR (T + v) / IZR (T * 2)) <= IZR (T + v) / IZR (T * 2) / 1048576)%R /\
  (v = - T -> exists s, opposite_thr T v = S754_zero s).
Proof.
  intros HT Hv. destruct (ratio_spec (T * 2) (T + v)) as (H1 & H2 & H3); [unfold int_max; lia|lia|].
  split; [exact H1|]. split; [exact H2|]. intros ->. apply H3. lia.
Qed.

Section Saturated.
  Context {R : rnd} (g_ok : eG R -> Prop) (f_ok : eF R -> Prop) (HR : rnd_ok R g_ok f_ok).
  Context (S : sch) (HS : sch_ok S).
  Context (A : algo R) (vw : aview A).
  Lemma f_iter_ok f i : f_ok f -> f_ok (f_iter R i f).
  Proof. revert f. induction i as [|i IH]; intros f Hf; cbn; [done|]. apply IH. by apply (f_next_ok _ _ _ HR). Qed.
  Lemma f_draw_pos f i : f_ok f -> f_lt (S754_zero false) (f_draw R f i) = true.
  Proof. intros Hf. unfold f_draw. by apply (f_next_ok _ _ _ HR), f_iter_ok. Qed.
  Lemma reach_f a p os rs (e : est (a_pol A) (eS S) (eG R) (eF R)) L nf : tsetlini_algo R A vw -> clf_created a p -> clf_history S A vw p os rs e ->
    clf_dims_of os rs = Some (L, nf) -> f_ok (e_fgen e).
  Proof.
    intros HA Hc Hh Hd. destruct (clf_hist_laws g_ok f_ok HR A vw HA a (cc_valid _ _ Hc)) as (I & Ea & Eb & E2 & Lw).
    pose proof (clf_history_at g_ok f_ok HR S HS A vw _ _ I Ea Eb E2 Lw a p os rs e Hc eq_refl eq_refl Hh) as Hat.
    rewrite Hd in Hat. destruct Hat as [(_ & _ & Hcore) _]. apply (cc_f _ _ _ _ _ _ _ _ _ _ _ Hcore).
  Qed.
  Lemma saturated_step a p os rs (e e' : est (a_pol A) (eS S) (eG R) (eF R)) L nf x t ml :
    trains_well R (ca_states a) A vw -> clf_created a p -> clf_history S A vw p os rs e -> clf_dims_of os rs = Some (L, nf) ->
    v_phys vw x -> ca_threshold a < 1073741824 -> clf_partial_fit S A e [x] [t] ml 1 = Ret (S_OK, e') ->
    let n := Z.to_nat (ca_clauses a / 2) in
    let T := ca_threshold a in
    let o := opposite (Z.to_nat t) L (g_next R (e_igen e)).1 in
    let votes l := clamp (- T) T (signed_votes n (fun i => fires vw nf (e_ta e) x (l * n + i)) (fun i => weight_of (ta_weights (e_ta e)) (l * n + i))) in
    (votes (Z.to_nat t) = T -> forall i, (i < n)%nat -> clause_untouched vw nf (Z.to_nat t * n + i) (e_ta e) (e_ta e')) /\
    (votes o = - T -> forall i, (i < n)%nat -> clause_untouched vw nf (o * n + i) (e_ta e) (e_ta e')).
  Proof.
    intros Hw Hc Hh Hd Hx HT E n T o votes.
    pose proof (reach_f _ _ _ _ _ _ _ (trains_well_algo _ _ _ _ Hw) Hc Hh Hd) as Hf.
    pose proof (cc_valid _ _ Hc) as Ha. assert (1 <= T) as HT1.
    { destruct Ha as [_ Hacc _]. apply Hacc. }
    assert (forall v s i, f_draw R (e_fgen e) i = v -> ~ selected v (S754_zero s)) as Hns.
    { intros v s i <-. unfold selected. rewrite zero_lt_gt; [done|]. by apply f_draw_pos. }
    split; intros Hv i Hi.
    - destruct (one_target g_ok f_ok HR S HS A vw a p os rs e e' L nf x t ml Hw Hc Hh Hd Hx E i Hi) as [_ H]. apply H.
      change (~ selected (f_draw R (e_fgen e) i) (target_thr T (votes (Z.to_nat t)))).
      destruct (target_thr_spec T (votes (Z.to_nat t))) as (_ & _ & Hz); [lia|lia|]. destruct (Hz Hv) as [s ->]. by eapply Hns.
    - destruct (one_opposite g_ok f_ok HR S HS A vw a p os rs e e' L nf x t ml Hw Hc Hh Hd Hx E i Hi) as [_ H]. apply H.
      change (~ selected (f_draw R (e_fgen e) (n + i)) (opposite_thr T (votes o))).
      destruct (opposite_thr_spec T (votes o)) as (_ & _ & Hz); [lia|lia|]. destruct (Hz Hv) as [s ->]. by eapply Hns.
  Qed.
End Saturated.

(** ** Coin tosser *)
(** the two admissible numbers of ones: rounding the computed features / s down or up; the computed quotient is features / s up to
    a relative error of 2^-22 *)
Definition toss_hits (s : float32) (nf : nat) (h : Z) : Prop :=
  exists m : R, (Rabs (m - INR nf / val s) <= INR nf / val s / 4194304 + bpow radix2 (-100))%R /\ (h = Zfloor m \/ h = Zceil m) /\ 0 <= h <= Z.of_nat nf.
Lemma hits_admissible s nf ct h : fin32 s -> (1 <= val s)%R -> Z.of_nat nf <= 16777216 ->
  ct_make (f32_div f32_one s) (Z.of_nat nf) = Ret ct -> hits_of ct h -> toss_hits s nf h.
Proof.
  intros H1 H2 H3 H4 H5. destruct (ct_hits_spec s nf ct h H1 H2 H3 H4 H5) as [H6 H7]. exists (toss_mean s (Z.of_nat nf)).
  split; [|done]. rewrite INR_IZR_INZ. apply toss_mean_close; [done..|]. lia.
Qed.
Lemma toss_count_hits s nf h : SpecFloat.valid_binary 24 128 s = true -> s_valid s = true -> Z.of_nat nf <= 16777216 ->
  toss_count s nf h -> toss_hits s nf h.
Proof. intros H1 H2 H3 (ct & E & H). destruct (s_valid_spec s H1 H2). by eapply hits_admissible. Qed.

Section Toss.
  Context {R : rnd} (g_ok : eG R -> Prop) (f_ok : eF R -> Prop) (HR : rnd_ok R g_ok f_ok).
  Lemma made_ok s nf ct0 ct : fin32 s -> (1 <= val s)%R -> Z.of_nat nf <= 16777216 -> ct_make (f32_div f32_one s) (Z.of_nat nf) = Ret ct0 ->
    same_rate ct0 ct -> ct_len nf ct -> ct_ok R g_ok False True nf ct /\ ct_hits_le nf ct /\ ct_zero nf ct.
  Proof.
    intros H1 H2 Hn Em (R1 & R2 & R3) Hl.
    assert (ct_hits_le nf ct /\ ct_zero nf ct) as [Hh Hz].
    { destruct (ct_make_spec s (Z.of_nat nf) H1 H2) as (thr & Em' & Ht & _); [unfold int_max; lia|]. rewrite Em in Em'.
      destruct (toss_mean_bounds s (Z.of_nat nf) H1 H2) as [Hq Hq2]; [unfold int_max; lia|].
      assert (0 <= Zfloor (toss_mean s (Z.of_nat nf)) <= 2147483648) as Hfl.
      { split; [apply Zfloor_lub; lra|]. apply le_IZR. eapply Rle_trans; [apply Zfloor_lb|lra]. }
      destruct (ct_hits_spec s nf ct0 (u32 (ct_floor ct0)) H1 H2 Hn Em (or_introl eq_refl)) as [_ Hb].
      unfold ct_hits_le, ct_zero. rewrite R2, R3. injection Em' as ->. cbn [ct_floor ct_thr] in *.
      unfold u32 in Hb. rewrite Z.mod_small in Hb by lia.
      assert (0 < thr -> Zfloor (toss_mean s (Z.of_nat nf)) + 1 <= Z.of_nat nf) as Hc.
      { intros Hp. destruct (ct_hits_spec s nf _ (u32 (Zfloor (toss_mean s (Z.of_nat nf)) + 1)) H1 H2 Hn Em) as [_ Hb']; [right; split; [done|exact Hp]|].
        unfold u32 in Hb'. rewrite Z.mod_small in Hb' by lia. lia. }
      split; [split; [lia|]|].
      - destruct (Z.ltb_spec 0 thr) as [Hp|Hp]; [specialize (Hc Hp); lia|lia].
      - intros ->. split; [lia|]. destruct (Z.ltb_spec 0 thr) as [Hp|Hp]; [specialize (Hc Hp); lia|lia]. }
    split; [|done]. split; [done|]. split; [by left|]. by right.
  Qed.
  (** one vector, whatever the scratch buffer contains; [covers] : the draws after the first one visit every residue *)
  Lemma toss_vector s (nf : nat) ct0 ct cache g : fin32 s -> (1 <= val s)%R -> Z.of_nat nf <= 16777216 -> g_ok g ->
    ct_make (f32_div f32_one s) (Z.of_nat nf) = Ret ct0 -> same_rate ct0 ct -> ct_len nf ct -> length cache = nf ->
    wp False (~ covers R nf (g_next R g).2) (ct_tosses_ R ct cache g) (fun '(c, g') =>
      g_ok g' /\ zo_list nf c /\ toss_hits s nf (Z.of_nat (count_ones c))).
  Proof.
    intros H1 H2 Hn Hg Em Hr Hl Hc. destruct (made_ok s nf ct0 ct H1 H2 Hn Em Hr Hl) as (Hok & Hle & Hz).
    pose proof (tosses_spec R g_ok f_ok HR False True nf ct cache g Hg Hc Hok) as W.
    destruct (ct_tosses_ R ct cache g) as [[c g']| | |] eqn:E; cbn [wp] in *; try done.
    - destruct W as (G1 & G2 & G3). split; [done|]. split; [done|]. eapply hits_admissible; [done..|].
      unfold hits_of in *. destruct Hr as (_ & Hr2 & Hr3). rewrite Hr2, Hr3 in G3. exact G3.
    - intros Hcov. unfold ct_tosses_ in E. pose proof (estimate_spec R g_ok f_ok HR ct g Hg) as He. unfold ct_estimate_hits in *.
      destruct (g_next R g) as [r g1] eqn:Eg. cbn [fst snd] in *. destruct He as (Hg1 & Hb & He).
      rewrite Hc in E. revert E. apply (fill_terminates R g_ok f_ok HR); [|done|done]. destruct Hle as [Hl0 Hl1]. split; [apply Hb|].
      assert (Z.of_nat nf < 4294967296) by lia.
      destruct (r <? ct_thr ct) eqn:Er.
      + revert Hl1. destruct (Z.ltb_spec 0 (ct_thr ct)) as [Hp|Hp]; intros Hl1.
        * unfold u32. rewrite Z.mod_small by lia. lia.
        * apply Z.ltb_lt in Er. pose proof (g_next_ok R g_ok f_ok HR g Hg) as [Hr0 _]. rewrite Eg in Hr0. cbn in Hr0. lia.
      + assert (ct_floor ct <= Z.of_nat nf) by (destruct (0 <? ct_thr ct); lia). unfold u32. rewrite Z.mod_small by lia. lia.
  Qed.
End Toss.

(** more than 2^24 features: with s = 1 and 16777219 features 16777220 ones are asked for, so that no stream whatsoever ends the loop *)
Lemma big_floor : f32_mul (f32_of_Z 16777219) (f32_div f32_one f32_one) = S754_finite false 8388610 1.
Proof. vm_compute. reflexivity. Qed.
Lemma toss_stuck {R : rnd} (g_ok : eG R -> Prop) f_ok (HR : rnd_ok R g_ok f_ok) nf g : Z.of_nat nf = 16777219 -> g_ok g ->
  exists ct, ct_make (f32_div f32_one f32_one) (Z.of_nat nf) = Ret ct /\ forall cache, length cache = nf -> ct_tosses_ R ct cache g = OutOfFuel.
Proof.
  intros Hnf Hg. pose proof (proj1 one32) as F1. assert (1 <= val f32_one)%R as V1 by (rewrite (proj2 one32); lra).
  unfold ct_make. rewrite Hnf, big_floor.
  assert (to_u32 (f32_floor (S754_finite false 8388610 1)) = Ret 16777220) as -> by (vm_compute; reflexivity). cbn [obind].
  assert (to_u32 (f64_round (f64_mul (f64_of_f32 (f32_sub (S754_finite false 8388610 1) (f32_floor (S754_finite false 8388610 1)))) (f64_of_Z 4294967295))) = Ret 0) as ->
    by (vm_compute; reflexivity). cbn [obind].
  eexists. split; [reflexivity|]. intros cache Hl.
  assert (exists g1, ct_estimate_hits R (CT (f32_div f32_one f32_one) 16777220 0 (replicate (Z.to_nat 16777219) 0) (replicate (Z.to_nat 16777219) 0)) g = (16777220, g1) /\ g_ok g1) as (g1 & Eh & Hg1).
  { unfold ct_estimate_hits. pose proof (g_next_ok R g_ok f_ok HR g Hg) as [Hr Hg1]. destruct (g_next R g) as [r g1]. cbn [fst snd] in *. exists g1. split; [|done].
    cbn [ct_floor ct_thr]. destruct (Z.ltb_spec r 0); [lia|]. rewrite Z.add_0_r. reflexivity. }
  unfold ct_tosses_. rewrite Eh, Hl.
  pose proof (fill_spec R g_ok f_ok HR 16777220 False True (tfuel R) 0 (replicate nf 0) g1 Hg1) as W.
  feed specialize W.
  { apply Forall_replicate. auto. } { by rewrite count_ones_replicate. } { lia. } { left. rewrite replicate_length. lia. } { done. }
  destruct (ct_fill _ _ _ _ _ _) as [[c g']| | |]; cbn [wp] in W; try done.
  destruct W as (_ & [Hlc _] & Hc). rewrite replicate_length in Hlc. pose proof (count_ones_le c) as Hle. lia.
Qed.

(** ** Loss functions *)
Lemma plain_losses name C1 loss : make_loss_fn name C1 = Ret loss -> (name = "MAE" \/ name = "L1" \/ name = "MSE" \/ name = "L2")%string ->
  loss_fine loss /\ (forall x, fin32 x -> Rabs (val x) = 1%R -> val (loss x) = 1%R).
Proof.
  intros E Hn. assert ((forall x, loss x = mae x) \/ (forall x, loss x = mse x)) as [H|H].
  { destruct (make_loss_cases _ _ _ E) as [[_ H]|[[_ H]|[[-> _]|[-> _]]]]; auto; by destruct_or! Hn. }
  - split.
    + destruct mae_fine as [H1 H2 H3]. constructor; intros; rewrite ?H; auto.
    + intros x Hx Hv. rewrite H. by rewrite (proj2 (mae_spec x Hx)).
  - split.
    + destruct mse_fine as [H1 H2 H3]. constructor; intros; rewrite ?H; auto.
    + intros x Hx Hv. rewrite H. destruct (mse_spec x Hx) as (_ & -> & _); [lra|]. rewrite sq_abs, Hv, Rmult_1_l.
      apply rne_id, (fmt32_int 1); lia.
Qed.
Lemma mixed_loss C1 loss : make_loss_fn "L1+2" C1 = Ret loss -> fin32 C1 -> (0 <= val C1 <= 1)%R -> loss_fine loss.
Proof.
  intros E H1 H2. destruct (make_loss_cases _ _ _ E) as [[[?|?] _]|[[[?|?] _]|[[? _]|[_ H]]]]; try done.
  destruct (l12_fine C1 H1 H2) as [G1 G2 G3]. constructor; intros; rewrite ?H; auto.
Qed.
(** the parameter sets with a well behaved loss *)
Definition loss_sound (a : reg_args) : Prop :=
  (ra_loss a = "MAE" \/ ra_loss a = "L1" \/ ra_loss a = "MSE" \/ ra_loss a = "L2")%string \/
  (ra_loss a = "L1+2"%string /\ is_finite_sf (ra_C1 a) = true /\ (0 <= val (ra_C1 a) <= 1)%R).
Lemma loss_sound_fine a loss : reg_typed a -> loss_sound a -> make_loss_fn (ra_loss a) (ra_C1 a) = Ret loss -> loss_fine loss.
Proof.
  intros Ht [Hn|(En & H1 & H2)] E; [by eapply plain_losses|]. rewrite En in E. eapply mixed_loss; [exact E| |done]. split; [apply Ht|done].
Qed.

(** ** Number of feedbacks of a regressor update *)
Lemma reg_count_defined {R : rnd} a err loss (g : eG R) : reg_valid a -> reg_typed a -> loss_bounds a ->
  make_loss_fn (ra_loss a) (ra_C1 a) = Ret loss -> - ra_threshold a <= err <= ra_threshold a ->
  exists h g', feedback_hits (R := R) (ra_box_muller a) (ra_clauses a / 2) (loss (f32_div (f32_of_Z err) (f32_of_Z (ra_threshold a)))) g = Ret (h, g') /\
    0 <= h <= ra_clauses a / 2.
Proof.
  intros Ha Ht Hl E He. pose proof Ha as [[] [] _]. unfold is_int in *.
  destruct (rel_err_spec err (ra_threshold a)) as (F & B & _); [unfold int_max in *; lia|done|].
  pose proof (loss_tame a loss _ Ht Hl E F ltac:(apply Rabs_le; lra)) as Hp. rewrite (proj1 Hl). unfold rel_err in Hp.
  destruct (reg_n_facts a Ha) as (Ecl & _ & Hn1). assert (ra_clauses a / 2 = Z.of_nat (reg_n a)) as Eq by lia. rewrite Eq.
  apply (hits_no_ub (R := R) (Z.of_nat (reg_n a)) _ g); [unfold int_max in *; lia|done].
Qed.
Lemma pick_close {R : rnd} a err k : reg_valid a -> reg_typed a -> loss_sound a -> ra_box_muller a = false -> ra_clauses a <= 2097152 ->
  - ra_threshold a <= err <= ra_threshold a -> pick_count (R := R) a err k ->
  exists loss x, make_loss_fn (ra_loss a) (ra_C1 a) = Ret loss /\ fin32 x /\ (-1 <= val x <= 1)%R /\
    (Rabs (val x - IZR err / IZR (ra_threshold a)) <= / 1048576)%R /\ (0 <= val (loss x) <= 1)%R /\
    (Rabs (INR k - IZR (ra_clauses a / 2) * val (loss x)) <= 1)%R.
Proof.
  intros Ha Ht Hl Hb Hc He (loss & g & g' & E & Q). pose proof Ha as [[] [] _]. unfold is_int in *.
  destruct (rel_err_spec err (ra_threshold a)) as (F & B & Hr); [unfold int_max in *; lia|done|].
  destruct (reg_n_facts a Ha) as (Ecl & _ & Hn1). assert (ra_clauses a / 2 = Z.of_nat (reg_n a)) as Eq by lia.
  pose proof (loss_sound_fine a loss Ht Hl E) as Hf. destruct (lf_fin _ Hf _ F ltac:(apply Rabs_le; lra)) as [Fl Bl].
  exists loss, (rel_err err (ra_threshold a)). split; [done|]. split; [done|]. split; [done|]. split; [done|]. split; [done|].
  rewrite INR_IZR_INZ. rewrite Hb in Q. eapply (hits_close (R := R)); [|exact Fl|exact Bl|exact Q]. rewrite Eq. lia.
Qed.
(** ** where it is not defined *)
Definition f32_half_ : float32 := f32_div f32_one (f32_of_Z 2).
(** table entries of box_muller_approx.cpp, sqrt_log_u1_arr[0] = 3.331389, sin_u2_arr[127] = -0.999925 *)
Definition bm_entry1 : float32 := f32_div (f32_of_Z 3331389) (f32_of_Z 1000000).
Definition bm_entry2 : float32 := f32_div (f32_of_Z (-999925)) (f32_of_Z 1000000).
Lemma box_muller_ub {R : rnd} (g : eG R) : bm1 R 0 = bm_entry1 -> bm2 R 127 = bm_entry2 -> (g_next R g).1 = 32512 ->
  feedback_hits (R := R) true 2 f32_half_ g = UB FloatToInt.
Proof.
  intros H1 H2 Hd. unfold feedback_hits, bm_binomial, bm_normal. destruct (g_next R g) as [r g']. cbn [fst] in Hd. subst r.
  change (32512 mod 256) with 0. change (32512 / 256 mod 256) with 127. rewrite H1, H2. vm_compute. reflexivity.
Qed.
Lemma l12_ub {R : rnd} (g : eG R) loss : make_loss_fn "L1+2" (f32_of_Z (10 ^ 20)) = Ret loss ->
  feedback_hits (R := R) false 2 (loss f32_half_) g = UB FloatToInt.
Proof.
  intros E. destruct (make_loss_cases _ _ _ E) as [[[?|?] _]|[[[?|?] _]|[[? _]|[_ H]]]]; try discriminate. rewrite H. vm_compute. reflexivity.
Qed.
Definition f32_06 : float32 := f32_div (f32_of_Z 6) (f32_of_Z 10).
Lemma berhu_bad loss : make_loss_fn "berHu" f32_half_ = Ret loss ->
  f_lt (loss f32_06) (S754_zero false) = true /\ f_lt (loss f32_06) (loss f32_half_) = true /\ f_lt f32_half_ f32_06 = true /\ f_lt f32_06 f32_one = true.
Proof.
  intros E. destruct (make_loss_cases _ _ _ E) as [[[?|?] _]|[[[?|?] _]|[[_ H]|[? _]]]]; try discriminate. rewrite !H. vm_compute. auto.
Qed.

(** ** C39, as stated *)
Lemma toss_vector_match (R : rnd) g_ok f_ok s (nf : nat) ct0 ct cache g :
  rnd_ok R g_ok f_ok -> fin32 s -> (1 <= val s)%R -> Z.of_nat nf <= 16777216 -> g_ok g ->
  ct_make (f32_div f32_one s) (Z.of_nat nf) = Ret ct0 -> same_rate ct0 ct -> ct_len nf ct -> length cache = nf ->
  match ct_tosses_ R ct cache g with
  | Ret (c, _) => length c = nf /\ Forall (fun v => v = 0 \/ v = 1) c /\
      exists m : Rdefinitions.R, (Rabs (m - INR nf / val s) <= INR nf / val s / 4194304 + bpow radix2 (-100))%R /\
        (Z.of_nat (count_ones c) = Zfloor m \/ Z.of_nat (count_ones c) = Zceil m) /\ (count_ones c <= nf)%nat
  | OutOfFuel => ~ covers R nf (g_next R g).2
  | _ => False
  end.
Proof.
  intros HR H1 H2 H3 H4 H5 H6 H7 H8. pose proof (toss_vector g_ok f_ok HR s nf ct0 ct cache g H1 H2 H3 H4 H5 H6 H7 H8) as W.
  destruct (ct_tosses_ R ct cache g) as [[c g']| | |]; cbn [wp] in W; try done.
  destruct W as (_ & [Hl Hz] & m & Hm & Hh & Hb). split; [done|]. split; [done|]. exists m. split; [done|]. split; [done|]. lia.
Qed.
Lemma tosser_made s nf : fin32 s -> (1 <= val s)%R -> Z.of_nat nf <= int_max ->
  exists ct, ct_make (f32_div f32_one s) (Z.of_nat nf) = Ret ct /\ ct_len nf ct.
Proof.
  intros H1 H2 H3. destruct (ct_make_spec s (Z.of_nat nf) H1 H2) as (thr & E & _); [lia|]. eexists. split; [exact E|].
  split; cbn; by rewrite replicate_length, Nat2Z.id.
Qed.
(** the same source of randomness with another bound on the rejection loop *)
Definition with_fuel (R : rnd) (n : nat) : rnd := Rnd (eG R) (g_init R) (g_next R) (eF R) (f_init R) (f_next R) (shuf R) (ltr R) n (bm1 R) (bm2 R).
Lemma bounded_choice (P : nat -> nat -> Prop) n : (forall k, (k < n)%nat -> exists i, P k i) -> exists m, forall k, (k < n)%nat -> exists i, (i < m)%nat /\ P k i.
Proof.
  induction n as [|n IH]; intros H; [exists O; lia|]. destruct IH as [m Hm]; [intros k Hk; apply H; lia|]. destruct (H n) as [i Hi]; [lia|].
  exists (Nat.max m (Datatypes.S i)). intros k Hk. destruct (decide (k = n)) as [->|]; [exists i; split; [lia|done]|].
  destruct (Hm k) as (j & Hj & Hp); [lia|]. exists j. split; [lia|done].
Qed.
Lemma toss_terminates (R : rnd) g_ok f_ok s (nf : nat) ct0 ct cache g :
  rnd_ok R g_ok f_ok -> fin32 s -> (1 <= val s)%R -> Z.of_nat nf <= 16777216 -> g_ok g ->
  ct_make (f32_div f32_one s) (Z.of_nat nf) = Ret ct0 -> same_rate ct0 ct -> ct_len nf ct -> length cache = nf ->
  (forall k, (k < nf)%nat -> exists i, g_draw R (g_next R g).2 i mod Z.of_nat nf = Z.of_nat k) ->
  exists n c g', ct_tosses_ (with_fuel R n) ct cache g = Ret (c, g').
Proof.
  intros HR H1 H2 H3 H4 H5 H6 H7 H8 Hcov. apply bounded_choice in Hcov as [n Hn]. exists n.
  assert (rnd_ok (with_fuel R n) g_ok f_ok) as HR' by (destruct HR; by constructor).
  pose proof (toss_vector_match (with_fuel R n) g_ok f_ok s nf ct0 ct cache g HR' H1 H2 H3 H4 H5 H6 H7 H8) as W.
  destruct (ct_tosses_ (with_fuel R n) ct cache g) as [[c g']| | |]; try done; eauto.
Qed.
