(** * One training step: which clauses get feedback, what it does to automata and weights, what it leaves alone. *)
From Verif Require Export EstPredict.
From stdpp Require Import list.
Local Open Scope Z_scope.

(** ** Weights *)
Definition weight_up (weighted : bool) (maxw w : Z) : Z := if weighted && (w + 1 <? maxw) then w + 1 else w.
Definition weight_down (w : Z) : Z := Z.max 0 (w - 1).

Lemma weights_set maxw n ws j w : (length ws = n /\ Forall (fun w => 0 <= w /\ 1 + w <= maxw) ws) -> (j < n)%nat ->
  0 <= w -> 1 + w <= maxw ->
  vset ws j w = Ret (<[j := w]> ws) /\ (length (<[j := w]> ws) = n /\ Forall (fun w => 0 <= w /\ 1 + w <= maxw) (<[j := w]> ws)) /\
  weight_of (<[j := w]> ws) j = w /\ forall i, i <> j -> weight_of (<[j := w]> ws) i = weight_of ws i.
Proof.
  intros [El HF] Hj H0 H1. split; [apply vset_ret; lia|]. split; [|split].
  - split; [by rewrite insert_length|]. apply Forall_insert; auto.
  - unfold weight_of. rewrite list_lookup_insert by lia. done.
  - intros i Hi. unfold weight_of. by rewrite list_lookup_insert_ne.
Qed.
Lemma weight_inc_spec weighted maxw n ws j : weights_ok weighted maxw n ws -> 1 <= maxw <= int_max -> (j < n)%nat ->
  exists ws', weight_inc maxw ws j = Ret ws' /\ weights_ok weighted maxw n ws' /\
    weight_of ws' j = weight_up weighted maxw (weight_of ws j) /\ forall i, i <> j -> weight_of ws' i = weight_of ws i.
Proof.
  intros Hw Hm Hj. unfold weight_inc. destruct weighted; cbn [weights_ok] in Hw.
  - pose proof Hw as [El HF]. destruct (Nat.eqb_spec (length ws) 0); [lia|].
    destruct (vget_ret_lt ws j) as (v & Ev & ->); [lia|]. cbn [obind].
    assert (weight_of ws j = v) as Ew by (unfold weight_of; by rewrite Ev). eapply Forall_lookup_1 in HF as [H0 H1]; [|exact Ev].
    unfold int_max in Hm. assert (u32 (v + 1) = v + 1) as E1 by (unfold u32; apply Z.mod_small; lia). rewrite E1.
    assert (u32 (v + b2z (v + 1 <? maxw)) = weight_up true maxw v) as ->.
    { unfold weight_up, b2z, u32. cbn [andb]. destruct (Z.ltb_spec (v + 1) maxw); rewrite Z.mod_small; lia. }
    rewrite Ew. assert (0 <= weight_up true maxw v /\ 1 + weight_up true maxw v <= maxw) as [Hu0 Hu1].
    { unfold weight_up. cbn [andb]. destruct (Z.ltb_spec (v + 1) maxw); lia. }
    destruct (weights_set maxw n ws j (weight_up true maxw v) Hw Hj Hu0 Hu1) as (E & H). eauto.
  - subst ws. cbn. eexists. split; [done|]. split; [done|]. split; done.
Qed.
Lemma weight_dec_spec weighted maxw n ws j : weights_ok weighted maxw n ws -> 1 <= maxw <= int_max -> (j < n)%nat ->
  exists ws', weight_dec ws j = Ret ws' /\ weights_ok weighted maxw n ws' /\
    weight_of ws' j = weight_down (weight_of ws j) /\ forall i, i <> j -> weight_of ws' i = weight_of ws i.
Proof.
  intros Hw Hm Hj. unfold weight_dec. destruct weighted; cbn [weights_ok] in Hw.
  - pose proof Hw as [El HF]. destruct (Nat.eqb_spec (length ws) 0); [lia|].
    destruct (vget_ret_lt ws j) as (v & Ev & ->); [lia|]. cbn [obind].
    assert (weight_of ws j = v) as Ew by (unfold weight_of; by rewrite Ev). eapply Forall_lookup_1 in HF as [H0 H1]; [|exact Ev].
    unfold int_max in Hm.
    assert (u32 (v - b2z (negb (v =? 0))) = weight_down v) as ->.
    { unfold weight_down, b2z, u32. destruct (Z.eqb_spec v 0); cbn [negb]; rewrite Z.mod_small; lia. }
    rewrite Ew. assert (0 <= weight_down v /\ 1 + weight_down v <= maxw) as [Hu0 Hu1] by (unfold weight_down; lia).
    destruct (weights_set maxw n ws j (weight_down v) Hw Hj Hu0 Hu1) as (E & H). eauto.
  - subst ws. cbn. eexists. split; [done|]. split; [done|]. split; done.
Qed.

(** ** Draws of the float generator *)
Section FDraw.
  Context (R : rnd).
  Fixpoint f_iter (n : nat) (f : eF R) : eF R := match n with O => f | S n => f_iter n (f_next R f).2 end.
  Definition f_draw (f : eF R) (i : nat) : float32 := (f_next R (f_iter i f)).1.
  Lemma f_iter_S n f : f_iter (S n) f = (f_next R (f_iter n f)).2.
  Proof. revert f; induction n as [|n IH]; intros f; [done|]. cbn [f_iter] in *. by rewrite IH. Qed.
  Lemma f_iter_add n m f : f_iter (n + m) f = f_iter m (f_iter n f).
  Proof. revert f; induction n as [|n IH]; intros f; [done|]. cbn. by rewrite IH. Qed.
  Lemma f_iter_ok g_ok f_ok (HR : rnd_ok R g_ok f_ok) n f : f_ok f -> f_ok (f_iter n f).
  Proof. intros Hf. induction n as [|n IH]; [done|]. rewrite f_iter_S. by apply (f_next_ok R g_ok f_ok HR). Qed.

  Lemma feedback_loop_spec THR efb ofb b k fb f : (b + k <= length fb)%nat ->
    exists fb', feedback_loop R THR efb ofb (seq b k) fb f = Ret (fb', f_iter k f) /\ length fb' = length fb /\
      forall i, fb' !! i = if decide (b <= i < b + k)%nat then
          (if f_gt (f_draw f (i - b)) THR then fb !! i else Some (if Nat.even i then efb else ofb))
        else fb !! i.
  Proof.
    revert b fb f. induction k as [|k IH]; intros b fb f Hb.
    - exists fb. split; [done|]. split; [done|]. intros i. rewrite decide_False; [done|lia].
    - unfold feedback_loop. cbn [seq ofold]. destruct (f_next R f) as [r f1] eqn:Ef.
      set (fb1 := if f_gt r THR then fb else <[b := if Nat.even b then efb else ofb]> fb).
      assert (length fb1 = length fb) as El1 by (unfold fb1; destruct (f_gt r THR); [done|by rewrite insert_length]).
      assert ((if f_gt r THR then Ret (fb, f1)
        else let* fb0 := vset fb b (if Nat.even b then efb else ofb) in Ret (fb0, f1)) = Ret (fb1, f1)) as ->.
      { unfold fb1. destruct (f_gt r THR); [done|]. rewrite vset_ret by lia. done. }
      cbn [obind]. destruct (IH (S b) fb1 f1) as (fb' & E & El & Hi); [lia|].
      unfold feedback_loop in E. exists fb'. rewrite E. cbn [f_iter]. rewrite Ef. cbn [snd]. split; [done|]. split; [congruence|].
      intros i. rewrite Hi. destruct (decide (i = b)) as [->|Hne].
      + rewrite decide_False by lia. rewrite decide_True by lia. rewrite Nat.sub_diag. unfold f_draw. cbn [f_iter]. rewrite Ef. cbn [fst].
        unfold fb1. destruct (f_gt r THR); [done|]. rewrite list_lookup_insert by lia. done.
      + assert (fb1 !! i = fb !! i) as E1 by (unfold fb1; destruct (f_gt r THR); [done|by rewrite list_lookup_insert_ne]).
        rewrite E1. destruct (decide (S b <= i < S b + k)%nat) as [H|H].
        * rewrite decide_True by lia. replace (i - b)%nat with (S (i - S b)) by lia. unfold f_draw. cbn [f_iter]. rewrite Ef. done.
        * rewrite decide_False by lia. done.
  Qed.
End FDraw.

(** feedback to clause [j] of the target label [t] / the opposite label [o]: 1 = Type I, -1 = Type II, 0 = none.
    [draw i] is the i-th float draw of the step; a clause is selected unless its draw exceeds its label's threshold *)
Definition feedback_to (opl t o : nat) (draw : nat -> float32) (thr_t thr_o : float32) (j : nat) : Z :=
  if decide (t * opl <= j < t * opl + opl)%nat then
    (if f_gt (draw (j - t * opl)%nat) thr_t then 0 else if Nat.even j then 1 else -1)
  else if decide (o * opl <= j < o * opl + opl)%nat then
    (if f_gt (draw (opl + (j - o * opl))%nat) thr_o then 0 else if Nat.even j then -1 else 1)
  else 0.
(** selection thresholds: (T - votes) / 2T for the target, (T + votes) / 2T for the opposite label *)
Definition target_thr (T votes : Z) : float32 := f32_mul (f32_div f32_one (f32_of_Z (T * 2))) (f32_of_Z (T - votes)).
Definition opposite_thr (T votes : Z) : float32 := f32_mul (f32_div f32_one (f32_of_Z (T * 2))) (f32_of_Z (T + votes)).

Lemma clause_range_spec (l opl : nat) : Z.of_nat (l * opl + opl) <= int_max ->
  clause_range (Z.of_nat l) (Z.of_nat opl) = Ret (Z.of_nat (l * opl), Z.of_nat (l * opl + opl)).
Proof.
  intros H. unfold clause_range. rewrite <- Nat2Z.inj_mul. unfold int_max in *.
  rewrite ci32_ret by (unfold int_min, int_max; lia). cbn [obind].
  rewrite ci32_ret by (unfold int_min, int_max; lia). cbn [obind]. do 2 f_equal. lia.
Qed.
Lemma int_range_spec (b k : nat) : int_range (Z.of_nat b) (Z.of_nat (b + k)) = Ret (seq b k).
Proof.
  unfold int_range. rewrite (proj2 (Z.ltb_ge (Z.of_nat b) 0)) by lia. cbn [andb]. do 2 f_equal; lia.
Qed.

Lemma calc_feedback_spec (R : rnd) (U V : Prop) (L opl t o : nat) (T tv ov : Z) fb f :
  (t < L)%nat -> (o < L)%nat -> t <> o -> Z.of_nat (L * opl) <= int_max -> length fb = (L * opl)%nat ->
  0 <= T -> - T <= tv <= T -> - T <= ov <= T -> (T * 2 <= int_max \/ U) ->
  wp U V (calc_feedback R fb (Z.of_nat t) (Z.of_nat o) tv ov (Z.of_nat opl) T f) (fun '(fb', f') =>
    T * 2 <= int_max /\ f' = f_iter R (opl + opl) f /\ length fb' = (L * opl)%nat /\
    forall j, (j < L * opl)%nat ->
      fb' !! j = Some (feedback_to opl t o (f_draw R f) (target_thr T tv) (opposite_thr T ov) j)).
Proof.
  intros Ht Ho Hne Hn Hl HT Htv Hov HU. unfold calc_feedback.
  apply wp_bind, wp_ci32; [intros [_ H2]|destruct HU; [left; unfold int_min; lia|by right]].
  assert (int_min <= T - tv <= int_max /\ int_min <= T + ov <= int_max) as [B1 B2] by (unfold int_min, int_max in *; lia).
  rewrite (ci32_ret (T - tv)) by lia. cbn [obind]. rewrite (ci32_ret (T + ov)) by lia. cbn [obind].
  assert ((t * opl + opl <= L * opl)%nat /\ (o * opl + opl <= L * opl)%nat) as [Bt Bo] by nia.
  rewrite (clause_range_spec t opl) by lia. cbn [obind]. rewrite int_range_spec. cbn [obind].
  fold (target_thr T tv). fold (opposite_thr T ov).
  destruct (feedback_loop_spec R (target_thr T tv) 1 (-1) (t * opl) opl (replicate (length fb) 0) f) as (fb1 & E1 & El1 & H1);
    [rewrite replicate_length; lia|]. rewrite E1. cbn [obind].
  rewrite replicate_length in El1.
  rewrite (clause_range_spec o opl) by lia. cbn [obind]. rewrite int_range_spec. cbn [obind].
  destruct (feedback_loop_spec R (opposite_thr T ov) (-1) 1 (o * opl) opl fb1 (f_iter R opl f)) as (fb2 & E2 & El2 & H2');
    [lia|]. rewrite E2. cbn [wp]. split; [done|]. split; [by rewrite f_iter_add|]. split; [congruence|].
  intros j Hj. rewrite H2', H1. unfold feedback_to.
  assert (replicate (length fb) 0 !! j = Some 0) as Er by (apply lookup_replicate; split; [done|lia]).
  assert (forall k, f_draw R (f_iter R opl f) k = f_draw R f (opl + k)) as Hd
    by (intros k; unfold f_draw; by rewrite f_iter_add).
  rewrite Er, Hd. destruct (decide (o * opl <= j < o * opl + opl)%nat) as [Hjo|Hjo].
  - assert (~ (t * opl <= j < t * opl + opl)%nat) as Hjt.
    { intros Hjt. assert (t = o) by (destruct (lt_eq_lt_dec t o) as [[?|?]|?]; [nia|done|nia]). done. }
    rewrite !(decide_False (P := (t * opl <= j < t * opl + opl)%nat)) by done.
    destruct (f_gt _ _); done.
  - destruct (decide (t * opl <= j < t * opl + opl)%nat); [|done]. destruct (f_gt _ _); done.
Qed.

Section Train.
  Context {R : rnd} (g_ok : eG R -> Prop).
  Context (A : algo R) (vw : aview A) (U V : Prop).
  Context (w N : Z) (I : nat -> nat -> nmatrix -> a_pol A -> Prop).
  Context (E1n : nat -> coin_tosser -> a_smp A -> nat -> amp A -> amp A -> Prop).
  Context (E1p : bool -> nat -> coin_tosser -> a_smp A -> nat -> amp A -> amp A -> Prop).
  Context (E2 : nat -> a_smp A -> nat -> amp A -> amp A -> Prop).
  Context (Lw : laws A g_ok vw U V w N I E1n E1p E2).
  Notation G := (eG R).
  Notation ta := (tastate (a_pol A)).
  Notation smp := (a_smp A).
  Definition mp (s : ta) : amp A := (ta_matrix s, ta_pol s).

  (** clause [j] is the same in both states: automata and weight *)
  Definition same_at (nf j : nat) (s s' : ta) : Prop :=
    same_clause vw nf j (mp s) (mp s') /\ weight_of (ta_weights s') j = weight_of (ta_weights s) j.
  Lemma same_at_refl nf j s : same_at nf j s s. Proof. by split. Qed.
  Lemma same_at_sym nf j s t : same_at nf j s t -> same_at nf j t s.
  Proof. intros [H1 H2]. split; [|done]. intros k Hk. destruct (H1 k Hk) as [-> ->]. done. Qed.
  Lemma same_at_trans nf j s t u : same_at nf j s t -> same_at nf j t u -> same_at nf j s u.
  Proof.
    intros [H1 H2] [H3 H4]. split; [|congruence]. intros k Hk. destruct (H1 k Hk) as [<- <-]. by destruct (H3 k Hk) as [<- <-].
  Qed.

  (** effect of feedback [k] (1 = Type I, -1 = Type II, 0 = none) on clause [j] which did ([fired]) or did not fire *)
  Definition clause_effect (weighted boost : bool) (maxw : Z) (nf : nat) (ct : coin_tosser) (x : smp) (j : nat) (k : Z) (fired : bool)
             (s s' : ta) : Prop :=
    let w := weight_of (ta_weights s) j in
    let w' := weight_of (ta_weights s') j in
    if k =? 1 then
      if fired then E1p boost nf ct x j (mp s) (mp s') /\ w' = weight_up weighted maxw w
      else E1n nf ct x j (mp s) (mp s') /\ w' = w
    else if (k =? -1) && fired then E2 nf x j (mp s) (mp s') /\ w' = weight_down w
    else same_at nf j s s'.

  Lemma clause_effect_frame weighted boost maxw nf ct ct' x j k fired s s' t t' :
    same_rate ct ct' -> same_at nf j s t -> same_at nf j s' t' ->
    clause_effect weighted boost maxw nf ct x j k fired s s' -> clause_effect weighted boost maxw nf ct' x j k fired t t'.
  Proof.
    intros Hr Hs Hs' H. pose proof Hs as [C1 W1]. pose proof Hs' as [C2 W2]. unfold clause_effect in *. rewrite W1, W2.
    destruct (k =? 1); [destruct fired|].
    - destruct H as [H ->]. split; [|done]. by eapply (l_f1p _ _ _ _ _ _ _ _ _ _ _ Lw).
    - destruct H as [H ->]. split; [|done]. by eapply (l_f1n _ _ _ _ _ _ _ _ _ _ _ Lw).
    - destruct (_ && _).
      + destruct H as [H ->]. split; [|done]. by eapply (l_f2 _ _ _ _ _ _ _ _ _ _ _ Lw).
      + eapply same_at_trans; [by apply same_at_sym|]. by eapply same_at_trans.
  Qed.
  Lemma only_clause_same n nf j i s s' : only_clause vw n nf j s s' -> (i < n)%nat -> i <> j -> same_clause vw nf i s s'.
  Proof. intros H Hi Hne k Hk. split; apply H; lia. Qed.

  (** what one training step keeps, for [n] clauses *)
  Definition tcore (weighted : bool) (maxw : Z) (n nf : nat) (st : ta * coin_tosser * G) : Prop :=
    let '(s, ct, g) := st in
    I n nf (ta_matrix s) (ta_pol s) /\ weights_ok weighted maxw n (ta_weights s) /\ ct_ok R g_ok U V nf ct /\ g_ok g.

  Section Step.
    Context (weighted boost : bool) (maxw : Z) (n nf : nat) (x : smp) (co : list Z) (fire : nat -> bool).
    Context (Hm : 1 <= maxw <= int_max) (Hx : v_ok vw nf x).
    Context (Hco : forall j, (j < n)%nat -> co !! j = Some (b2z (fire j))).

    (** feedback to clause [j] *)
    Definition step_post (k : Z) (j : nat) (s : ta) (ct : coin_tosser) : ta * coin_tosser * G -> Prop := fun '(s', ct', g') =>
      tcore weighted maxw n nf (s', ct', g') /\ same_rate ct ct' /\
      clause_effect weighted boost maxw nf ct x j k (fire j) s s' /\
      (forall i, (i < n)%nat -> i <> j -> same_at nf i s s').

    Lemma give_type1_spec j s ct g : (j < n)%nat -> tcore weighted maxw n nf (s, ct, g) ->
      wp U V (give_type1 A boost N maxw x co j s ct g) (step_post 1 j s ct).
    Proof.
      intros Hj (HI & Hw & Hct & Hg). unfold give_type1. rewrite (vget_ret co j _ (Hco j Hj)). cbn [obind].
      destruct (fire j) eqn:Ef; cbn [b2z Z.eqb].
      - apply wp_bind. eapply wp_mono; [by eapply (l_t1p _ _ _ _ _ _ _ _ _ _ _ Lw boost n nf)|].
        intros [[[m p] ct'] g'] (HI' & Ho & HE & Hr & Hct' & Hg').
        destruct (weight_inc_spec weighted maxw n (ta_weights s) j Hw Hm Hj) as (ws' & Ew & Hw' & Ej & Ei).
        rewrite Ew. cbn [obind wp]. unfold step_post, tcore. cbn [ta_matrix ta_weights ta_pol].
        split; [done|]. split; [done|]. rewrite Ef. split.
        + unfold clause_effect. cbn [Z.eqb Pos.eqb]. split; done.
        + intros i Hi Hne. split; [by eapply only_clause_same|]. cbn. by apply Ei.
      - apply wp_bind. eapply wp_mono; [by eapply (l_t1n _ _ _ _ _ _ _ _ _ _ _ Lw n nf)|].
        intros [[[m p] ct'] g'] (HI' & Ho & HE & Hr & Hct' & Hg').
        cbn [obind wp]. unfold step_post, tcore. cbn [ta_matrix ta_weights ta_pol].
        split; [done|]. split; [done|]. rewrite Ef. split.
        + unfold clause_effect. cbn [Z.eqb Pos.eqb]. split; done.
        + intros i Hi Hne. split; [by eapply only_clause_same|]. done.
    Qed.
    Lemma same_rate_refl ct : same_rate ct ct. Proof. done. Qed.
    Lemma give_type2_spec j s ct g : (j < n)%nat -> fire j = true -> tcore weighted maxw n nf (s, ct, g) ->
      wp U V (let* s := give_type2 A x j s in Ret (s, ct, g)) (step_post (-1) j s ct).
    Proof.
      intros Hj Ef (HI & Hw & Hct & Hg). unfold give_type2. apply wp_bind, wp_bind.
      eapply wp_mono; [by eapply (l_t2 _ _ _ _ _ _ _ _ _ _ _ Lw n nf)|].
      intros [m p] (HI' & Ho & HE).
      destruct (weight_dec_spec weighted maxw n (ta_weights s) j Hw Hm Hj) as (ws' & Ew & Hw' & Ej & Ei).
      rewrite Ew. cbn [obind wp]. unfold step_post, tcore. cbn [ta_matrix ta_weights ta_pol].
      split; [done|]. split; [done|]. rewrite Ef. split.
      + unfold clause_effect. cbn [Z.eqb Pos.eqb andb]. split; done.
      + intros i Hi Hne. split; [by eapply only_clause_same|]. cbn. by apply Ei.
    Qed.
    Lemma no_feedback k j s ct g : (j < n)%nat -> k <> 1 -> (k <> -1 \/ fire j = false) -> tcore weighted maxw n nf (s, ct, g) ->
      step_post k j s ct (s, ct, g).
    Proof.
      intros Hj Hk Hk' Hc. unfold step_post. split; [done|]. split; [done|]. split.
      - unfold clause_effect. rewrite (proj2 (Z.eqb_neq k 1)) by done.
        assert ((k =? -1) && fire j = false) as ->.
        { destruct Hk' as [H| ->]; [by rewrite (proj2 (Z.eqb_neq k (-1)))|apply andb_false_r]. }
        apply same_at_refl.
      - intros; apply same_at_refl.
    Qed.

    (** the loop over a set of clauses *)
    Definition loop_post (fb : nat -> Z) (js : list nat) (s : ta) (ct : coin_tosser) : ta * coin_tosser * G -> Prop := fun '(s', ct', g') =>
      tcore weighted maxw n nf (s', ct', g') /\ same_rate ct ct' /\
      (forall j, (j < n)%nat -> if decide (j ∈ js) then clause_effect weighted boost maxw nf ct x j (fb j) (fire j) s s'
                               else same_at nf j s s').
    Lemma train_classifier_spec (fb : nat -> Z) fbl js s ct g :
      NoDup js -> (forall j, j ∈ js -> (j < n)%nat) -> (forall j, (j < n)%nat -> fbl !! j = Some (fb j)) ->
      (forall j, fb j = 1 \/ fb j = -1 \/ fb j = 0) ->
      tcore weighted maxw n nf (s, ct, g) ->
      wp U V (train_classifier A js fbl co N x maxw boost s ct g) (loop_post fb js s ct).
    Proof.
      intros Hnd Hjs Hfb Hf3 Hc. unfold train_classifier.
      apply (wp_ofold_ix (fun pre => loop_post fb pre s ct)).
      { split; [done|]. split; [done|]. intros j Hj. rewrite decide_False by (by apply not_elem_of_nil). apply same_at_refl. }
      intros pre j post [[s1 ct1] g1] Ejs (Hc1 & Hr1 & Heff).
      assert (j < n)%nat as Hj by (apply Hjs; rewrite Ejs; set_solver).
      assert (j ∉ pre) as Hpre.
      { rewrite Ejs in Hnd. apply NoDup_app in Hnd as (_ & H & _). intros Hin. apply (H j Hin). by left. }
      rewrite (vget_ret fbl j _ (Hfb j Hj)). cbn [obind].
      assert (wp U V (if 1 <=? fb j then give_type1 A boost N maxw x co j s1 ct1 g1
        else if fb j <=? -1 then let* c := vget co j in
          if c =? 1 then let* s2 := give_type2 A x j s1 in Ret (s2, ct1, g1) else Ret (s1, ct1, g1)
        else Ret (s1, ct1, g1)) (step_post (fb j) j s1 ct1)) as Hstep.
      { destruct (Hf3 j) as [E|[E|E]]; rewrite E; cbn [Z.leb Z.compare Pos.compare Pos.compare_cont].
        - by apply give_type1_spec.
        - cbn [Z.opp CompOpp]. rewrite (vget_ret co j _ (Hco j Hj)). cbn [obind].
          destruct (fire j) eqn:Ef; cbn [b2z Z.eqb Pos.eqb]; [by apply give_type2_spec|].
          apply wp_ret, no_feedback; auto; done.
        - apply wp_ret, no_feedback; auto; lia. }
      eapply wp_mono; [exact Hstep|]. intros [[s2 ct2] g2] (Hc2 & Hr2 & Hj2 & Ho2).
      split; [done|]. assert (same_rate ct ct2) as Hr by (unfold same_rate in *; intuition congruence).
      split; [done|]. intros i Hi. destruct (decide (i = j)) as [->|Hne].
      - rewrite decide_True by set_solver. specialize (Heff j Hj). rewrite decide_False in Heff by done.
        eapply clause_effect_frame; [|by apply same_at_sym|apply same_at_refl|exact Hj2].
        unfold same_rate in *; intuition congruence.
      - specialize (Heff i Hi). specialize (Ho2 i Hi Hne).
        destruct (decide (i ∈ pre)) as [Hin|Hin].
        + rewrite decide_True by set_solver. eapply clause_effect_frame; [|apply same_at_refl|exact Ho2|exact Heff]. apply same_rate_refl.
        + rewrite decide_False by set_solver. by eapply same_at_trans.
    Qed.
  End Step.
End Train.
