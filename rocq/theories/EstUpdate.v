(** * Training: one classifier update, one epoch, any number of epochs. *)
From Verif Require Export EstTrain.
From stdpp Require Import list.
Local Open Scope Z_scope.

(** ** The opposite label *)
Section Opp.
  Context {R : rnd} (g_ok : eG R -> Prop) (f_ok : eF R -> Prop) (HR : rnd_ok R g_ok f_ok).
  Definition opp_value (y L r : Z) : Z := (y + 1 + r mod (L - 1)) mod L.
  Lemma opp_value_range y L r : 0 <= y < L -> 2 <= L -> 0 <= r -> 0 <= opp_value y L r < L /\ opp_value y L r <> y.
  Proof.
    intros Hy HL Hr. unfold opp_value. pose proof (Z.mod_pos_bound r (L - 1) ltac:(lia)) as Hm. set (q := r mod (L - 1)) in *.
    split; [apply Z.mod_pos_bound; lia|]. intros E.
    destruct (Z.lt_ge_cases (y + 1 + q) L) as [H|H].
    - rewrite Z.mod_small in E by lia. lia.
    - replace (y + 1 + q) with (y + 1 + q - L + 1 * L) in E by lia. rewrite Z.mod_add in E by lia.
      rewrite Z.mod_small in E by lia. lia.
  Qed.
  Lemma opp_value_onto y L o : 0 <= y < L -> 0 <= o < L -> o <> y -> L <= 4294967296 ->
    exists r, 0 <= r < 4294967296 /\ opp_value y L r = o.
  Proof.
    intros Hy Ho Hne HL. unfold opp_value. destruct (Z.lt_ge_cases y o) as [H|H].
    - exists (o - y - 1). split; [lia|]. rewrite (Z.mod_small (o - y - 1)) by lia.
      replace (y + 1 + (o - y - 1)) with o by lia. apply Z.mod_small. lia.
    - exists (o - y - 1 + L). split; [lia|]. rewrite (Z.mod_small (o - y - 1 + L)) by lia.
      replace (y + 1 + (o - y - 1 + L)) with (o + 1 * L) by lia. rewrite Z.mod_add by lia. apply Z.mod_small. lia.
  Qed.
  Lemma opposite_label_eq y L g : 0 <= y < L -> 2 <= L <= int_max -> g_ok g ->
    opposite_label y L g = Ret (opp_value y L (g_next R g).1, (g_next R g).2).
  Proof.
    intros Hy HL Hg. unfold opposite_label. unfold int_max in *. rewrite ci32_ret by (unfold int_min, int_max; lia). cbn [obind].
    pose proof (g_next_ok R g_ok f_ok HR g Hg) as [Hr _]. destruct (g_next R g) as [r g']. cbn [fst snd] in *.
    rewrite ci32_ret by (unfold int_min, int_max; lia). cbn [obind].
    assert (u32 (L - 1) = L - 1) as -> by (unfold u32; apply Z.mod_small; lia).
    assert (u32 L = L) as -> by (unfold u32; apply Z.mod_small; lia).
    destruct (Z.eqb_spec (L - 1) 0); [lia|]. destruct (Z.eqb_spec L 0); [lia|].
    pose proof (Z.mod_pos_bound r (L - 1) ltac:(lia)).
    assert (u32 (y + 1 + r mod (L - 1)) = y + 1 + r mod (L - 1)) as -> by (unfold u32; apply Z.mod_small; lia).
    fold (opp_value y L r). pose proof (opp_value_range y L r Hy ltac:(lia) ltac:(lia)).
    rewrite wrap_s_id; [done|lia|]. change (2 ^ (32 - 1)) with 2147483648. lia.
  Qed.
  Lemma opposite_label_spec (U V : Prop) (y : Z) (L : nat) g : 0 <= y < Z.of_nat L -> Z.of_nat L <= int_max -> ((2 <= L)%nat \/ U) -> g_ok g ->
    wp U V (opposite_label y (Z.of_nat L) g) (fun '(o, g') => (2 <= L)%nat /\ (exists ol, o = Z.of_nat ol /\ (ol < L)%nat) /\ o <> y /\ g_ok g').
  Proof.
    intros Hy HL HU Hg. destruct (decide (2 <= L)%nat) as [H2|H2].
    - rewrite opposite_label_eq by (try done; lia). cbn [wp].
      pose proof (g_next_ok R g_ok f_ok HR g Hg) as [Hr Hg'].
      destruct (opp_value_range y (Z.of_nat L) (g_next R g).1 Hy ltac:(lia) ltac:(lia)) as [H0 Hne].
      split; [done|]. split; [|done]. exists (Z.to_nat (opp_value y (Z.of_nat L) (g_next R g).1)). lia.
    - destruct HU as [?|HU]; [lia|]. assert (L = 1%nat) as -> by lia. unfold opposite_label.
      apply wp_bind, wp_ci32; [intros _|right; done]. destruct (g_next R g) as [r g']. cbn. done.
  Qed.
  (** the opposite labels of one epoch *)
  Definition opp_ok (L : nat) (y o : Z) : Prop := (exists ol, o = Z.of_nat ol /\ (ol < L)%nat) /\ o <> y.
  Lemma generate_opposite_spec (U V : Prop) (y : list Z) (L : nat) g :
    Forall (fun v => 0 <= v < Z.of_nat L) y -> Z.of_nat L <= int_max -> ((2 <= L)%nat \/ U) -> g_ok g ->
    wp U V (generate_opposite_y y (Z.of_nat L) g) (fun '(oy, g') => Forall2 (opp_ok L) y oy /\ g_ok g').
  Proof.
    intros Hy HL HU Hg. unfold generate_opposite_y.
    apply (wp_ofold_ix (fun pre '(oy, g') => Forall2 (opp_ok L) pre oy /\ g_ok g')); [by split|].
    intros pre yi post [oy g1] Ey [HF Hg1]. apply wp_bind.
    assert (0 <= yi < Z.of_nat L) as Hyi.
    { rewrite Ey in Hy. apply Forall_app in Hy as [_ Hy]. by inversion Hy. }
    eapply wp_mono; [by apply opposite_label_spec|]. intros [o g2] (_ & Ho & Hne & Hg2). cbn [wp]. split; [|done].
    apply Forall2_app; [done|]. by constructor.
  Qed.
End Opp.

Section Update.
  Context {R : rnd} (g_ok : eG R -> Prop) (f_ok : eF R -> Prop) (HR : rnd_ok R g_ok f_ok).
  Context (S : sch) (HS : sch_ok S).
  Context (A : algo R) (vw : aview A) (U V : Prop).
  Context (w N : Z) (I : nat -> nat -> nmatrix -> a_pol A -> Prop).
  Context (E1n : nat -> coin_tosser -> a_smp A -> nat -> amp A -> amp A -> Prop).
  Context (E1p : bool -> nat -> coin_tosser -> a_smp A -> nat -> amp A -> amp A -> Prop).
  Context (E2 : nat -> a_smp A -> nat -> amp A -> amp A -> Prop).
  Context (Lw : laws A g_ok vw U V w N I E1n E1p E2).
  Notation G := (eG R).
  Notation F := (eF R).
  Notation smp := (a_smp A).
  Notation ta := (tastate (a_pol A)).
  Notation cache := (cache (eS S)).
  Notation est := (est (a_pol A) (eS S) G F).
  Notation clf_core := (clf_core g_ok f_ok S A U V I).
  Notation reg_core := (reg_core g_ok S A U V I).

  Section Clf.
    Context (a : clf_args) (L nf : nat) (Ha : clf_valid a) (HN : N = ca_states a).
    Context (Hn : Z.of_nat (L * clf_opl a) <= int_max).
    Notation opl := (clf_opl a).
    Notation T := (ca_threshold a).

    (** votes for the target and the opposite label before the update *)
    Definition step_votes (s : ta) (x : smp) (l : nat) : Z := label_vote opl T (fires vw nf s x) (ta_weights s) l.
    (** feedback selection of one step *)
    Definition step_feedback (f : F) (s : ta) (x : smp) (t o : nat) (j : nat) : Z :=
      feedback_to opl t o (f_draw R f) (target_thr T (step_votes s x t)) (opposite_thr T (step_votes s x o)) j.
    Definition update_post (x : smp) (t o : nat) (st st' : G * F * ta * cache) : Prop :=
      let '(_, f, s, c) := st in let '(_, f', s', _) := st' in
      T * 2 <= int_max /\ f' = f_iter R (opl + opl) f /\
      forall j, (j < L * opl)%nat ->
        clause_effect A vw E1n E1p E2 (ca_weighted a) (ca_boost a) (ca_max_weight a) nf (ca_ct c) x j
          (step_feedback f s x t o j) (fires vw nf s x j) s s'.

    Lemma feedback_to_cases opl' t o draw th1 th2 j :
      feedback_to opl' t o draw th1 th2 j = 1 \/ feedback_to opl' t o draw th1 th2 j = -1 \/ feedback_to opl' t o draw th1 th2 j = 0.
    Proof.
      unfold feedback_to. destruct (decide _); [destruct (f_gt _ _); [auto|destruct (Nat.even j); auto]|].
      destruct (decide _); [destruct (f_gt _ _); [auto|destruct (Nat.even j); auto]|auto].
    Qed.
    Lemma feedback_to_none opl' t o draw th1 th2 j : j ∉ seq (t * opl') opl' -> j ∉ seq (o * opl') opl' ->
      feedback_to opl' t o draw th1 th2 j = 0.
    Proof.
      rewrite !elem_of_seq. intros H1 H2. unfold feedback_to. rewrite !decide_False by lia. done.
    Qed.

    Lemma classifier_update_spec x (t o : nat) n_jobs tile g f s c :
      clf_core a L nf (g, f, s, c) -> v_ok vw nf x -> (t < L)%nat -> (o < L)%nat -> t <> o -> tile_known tile ->
      (T * 2 <= int_max \/ U) ->
      wp U V (classifier_update S A x (Z.of_nat t) (Z.of_nat o) (Z.of_nat opl) T N (ca_boost a) (ca_max_weight a) n_jobs tile (g, f, s, c))
        (fun st' => clf_core a L nf st' /\ update_post x t o (g, f, s, c) st').
    Proof.
      intros Hcore Hx Ht Ho Hne Htile HT2. pose proof Hcore as [HI Hw (Lf & Lo & Ls) Hct Hrate Hg Hf]. cbn [fst snd] in *.
      pose proof Ha as [Hty Hac _]. destruct Hty, Hac. destruct (clf_opl_facts a Ha) as (_ & _ & Hev & Hopl).
      assert ((t * opl + opl <= L * opl)%nat /\ (o * opl + opl <= L * opl)%nat) as [Bt Bo] by nia.
      unfold classifier_update.
      rewrite (clause_range_spec t opl) by lia. cbn [obind].
      destruct (calc_output_spec g_ok S HS A vw U V w N I E1n E1p E2 Lw (L * opl) nf x c s (t * opl) (t * opl + opl) n_jobs tile)
        as (c1 & Ec1 & F1 & S1 & K1 & L1 & O1); [done|done|done|lia|lia|]. rewrite Ec1. cbn [obind].
      rewrite (clause_range_spec o opl) by lia. cbn [obind].
      destruct (calc_output_spec g_ok S HS A vw U V w N I E1n E1p E2 Lw (L * opl) nf x c1 s (o * opl) (o * opl + opl) n_jobs tile)
        as (c2 & Ec2 & F2 & S2 & K2 & L2 & O2); [done|done|done|lia|lia|]. rewrite Ec2. cbn [obind].
      assert (forall j, j ∈ seq (t * opl) opl \/ j ∈ seq (o * opl) opl -> ca_out c2 !! j = Some (b2z (fires vw nf s x j))) as Hout.
      { intros j Hj. rewrite !elem_of_seq in Hj. rewrite O2. destruct (decide (o * opl <= j < o * opl + opl)%nat); [done|].
        rewrite O1. rewrite decide_True by lia. done. }
      rewrite (sum_label_spec (ca_weighted a) (ca_max_weight a) L opl t T (ca_out c2) (ta_weights s) (ca_sum c2)
        (fun j => fires vw nf s x (t * opl + j))); [|done|split; [done|apply ct_maxw]|done|done|done|lia|congruence|].
      2:{ intros j Hj. apply Hout. left. apply elem_of_seq. lia. }
      cbn [obind].
      rewrite (sum_label_spec (ca_weighted a) (ca_max_weight a) L opl o T (ca_out c2) (ta_weights s) _
        (fun j => fires vw nf s x (o * opl + j))); [|done|split; [done|apply ct_maxw]|done|done|done|lia|rewrite insert_length; congruence|].
      2:{ intros j Hj. apply Hout. right. apply elem_of_seq. lia. }
      cbn [obind]. fold (label_vote opl T (fires vw nf s x) (ta_weights s) t).
      fold (label_vote opl T (fires vw nf s x) (ta_weights s) o).
      fold (step_votes s x t). fold (step_votes s x o).
      set (ls := <[o := step_votes s x o]> (<[t := step_votes s x t]> (ca_sum c2))).
      assert (length ls = L) as Els by (unfold ls; rewrite !insert_length; congruence).
      assert (vgetZ ls (Z.of_nat t) = Ret (step_votes s x t)) as ->.
      { unfold vgetZ. rewrite (proj2 (Z.ltb_ge (Z.of_nat t) 0)) by lia. rewrite Nat2Z.id. apply vget_ret. unfold ls.
        rewrite list_lookup_insert_ne by done. apply list_lookup_insert. rewrite S2, S1. lia. }
      assert (vgetZ ls (Z.of_nat o) = Ret (step_votes s x o)) as ->.
      { unfold vgetZ. rewrite (proj2 (Z.ltb_ge (Z.of_nat o) 0)) by lia. rewrite Nat2Z.id. apply vget_ret. unfold ls.
        apply list_lookup_insert. rewrite insert_length, S2, S1. lia. }
      cbn [obind]. apply wp_bind.
      eapply wp_mono; [apply (calc_feedback_spec R U V L opl t o T); try done; try lia|].
      { congruence. } { apply clamp_range. lia. } { apply clamp_range. lia. }
      intros [fb f'] (HT2' & Ef' & Efb & Hfb). cbn [obind]. fold (step_feedback f s x t o) in Hfb.
      assert (forall j, (j < L * opl)%nat -> fb !! j = Some (step_feedback f s x t o j)) as Hfb' by exact Hfb. clear Hfb.
      rewrite (int_range_spec (t * opl) opl). cbn [obind].
      assert (tcore g_ok A U V I (ca_weighted a) (ca_max_weight a) (L * opl) nf (s, ca_ct c2, g)) as Htc.
      { unfold tcore. rewrite K2, K1. done. }
      apply wp_bind.
      (* outputs outside the two labels are not read: extend the description by what is there *)
      set (fire := fun j => if decide (j ∈ seq (t * opl) opl \/ j ∈ seq (o * opl) opl) then fires vw nf s x j else false).
      set (co := imap (fun j v => if decide (j ∈ seq (t * opl) opl \/ j ∈ seq (o * opl) opl) then v else 0) (ca_out c2)).
      assert (forall ixs s0 ct0 g0, (forall j, j ∈ ixs -> j ∈ seq (t * opl) opl \/ j ∈ seq (o * opl) opl) ->
        train_classifier A ixs fb (ca_out c2) N x (ca_max_weight a) (ca_boost a) s0 ct0 g0 =
        train_classifier A ixs fb co N x (ca_max_weight a) (ca_boost a) s0 ct0 g0) as Hco_eq.
      { intros ixs s0 ct0 g0 Hix. unfold train_classifier. apply ofold_ext. intros j [[s1 ct1] g1] Hj. specialize (Hix j Hj).
        assert (vget (ca_out c2) j = vget co j) as Ev.
        { unfold vget, co. rewrite list_lookup_imap. destruct (ca_out c2 !! j); cbn; [|done]. by rewrite decide_True. }
        destruct (vget fb j) as [v| | |]; try done. cbn [obind]. unfold give_type1. by rewrite Ev. }
      assert (forall j, (j < L * opl)%nat -> co !! j = Some (b2z (fire j))) as Hco.
      { intros j Hj. unfold co, fire. rewrite list_lookup_imap. destruct (decide _) as [Hin|Hin].
        - by rewrite (Hout j Hin).
        - destruct (ca_out c2 !! j) eqn:E; [done|]. apply lookup_ge_None_1 in E. lia. }
      rewrite Hco_eq by (intros j Hj; by left).
      eapply wp_mono.
      { apply (train_classifier_spec g_ok A vw U V w N I E1n E1p E2 Lw (ca_weighted a) (ca_boost a) (ca_max_weight a) (L * opl) nf x co fire
          (conj cv_maxw (proj2 ct_maxw)) Hx Hco (step_feedback f s x t o)); try done.
        - apply NoDup_seq.
        - intros j Hj%elem_of_seq. lia.
        - intros j. apply feedback_to_cases. }
      intros [[s1 ct1] g1] (Hc1 & Hr1 & Heff1). cbn [obind].
      rewrite (int_range_spec (o * opl) opl). cbn [obind].
      rewrite Hco_eq by (intros j Hj; by right). apply wp_bind.
      eapply wp_mono.
      { apply (train_classifier_spec g_ok A vw U V w N I E1n E1p E2 Lw (ca_weighted a) (ca_boost a) (ca_max_weight a) (L * opl) nf x co fire
          (conj cv_maxw (proj2 ct_maxw)) Hx Hco (step_feedback f s x t o)); try done.
        - apply NoDup_seq.
        - intros j Hj%elem_of_seq. lia.
        - intros j. apply feedback_to_cases. }
      intros [[s2 ct2] g2] (Hc2 & Hr2 & Heff2). cbn [obind wp].
      destruct Hc2 as (HI2 & Hw2 & Hct2 & Hg2).
      assert (same_rate (ca_ct c) ct2) as Hr by (rewrite K2, K1 in Hr1; unfold same_rate in *; intuition congruence).
      split.
      - constructor; cbn [fst snd ca_ct ca_fb ca_out ca_sum]; try done.
        + unfold lens. cbn [ca_fb ca_out ca_sum]. split; [done|]. split; [by rewrite L2, L1|done].
        + destruct Hrate as (ct0 & E0 & Hr0). exists ct0. split; [done|]. unfold same_rate in *; intuition congruence.
        + subst f'. by apply (f_iter_ok R g_ok f_ok HR).
      - cbn [update_post]. split; [done|]. split; [done|]. intros j Hj.
        specialize (Heff1 j Hj). specialize (Heff2 j Hj).
        assert (same_rate (ca_ct c2) (ca_ct c)) as Hrc by (by rewrite K2, K1).
        destruct (decide (j ∈ seq (t * opl) opl)) as [Hjt|Hjt].
        + rewrite decide_False in Heff2.
          2:{ rewrite !elem_of_seq in *. intros Hjo.
              assert (t = o) by (destruct (lt_eq_lt_dec t o) as [[?|?]|?]; [nia|done|nia]). done. }
          unfold fire in Heff1. rewrite decide_True in Heff1 by (by left).
          eapply (clause_effect_frame g_ok A vw U V w N I E1n E1p E2 Lw); [exact Hrc|apply same_at_refl|exact Heff2|exact Heff1].
        + destruct (decide (j ∈ seq (o * opl) opl)) as [Hjo|Hjo].
          * unfold fire in Heff2. rewrite decide_True in Heff2 by (by right).
            eapply (clause_effect_frame g_ok A vw U V w N I E1n E1p E2 Lw); [|apply same_at_sym; exact Heff1|apply same_at_refl|exact Heff2].
            unfold same_rate in *; intuition congruence.
          * unfold step_feedback. rewrite feedback_to_none by done. unfold clause_effect. cbn [Z.eqb andb].
            by eapply same_at_trans.
    Qed.

    (** one epoch *)
    Lemma clf_epoch_spec p X y n_jobs tile st :
      clf_core a L nf st -> Forall (v_ok vw nf) X -> length y = length X -> Forall (fun v => 0 <= v < Z.of_nat L) y ->
      tile_known tile -> ((2 <= L)%nat \/ U) -> (T * 2 <= int_max \/ U) ->
      wp U V (clf_epoch S A p X y (Z.of_nat L) (Z.of_nat opl) T (ca_max_weight a) N (ca_boost a) tile n_jobs st) (clf_core a L nf).
    Proof.
      intros Hc HX Hly Hy Htile HL HT2. destruct st as [[[g f] s] c]. unfold clf_epoch. pose proof Hc as [HI Hw Hl Hct Hrate Hg Hf]. cbn [fst snd] in *.
      destruct (clf_opl_facts a Ha) as (_ & _ & _ & Hopl).
      apply wp_bind. eapply wp_mono; [apply (generate_opposite_spec g_ok f_ok HR); try done; nia|].
      intros [oy g1] [HF Hg1]. pose proof (shuf_ok R g_ok f_ok HR g1 (length X) Hg1) as [Hperm Hg2].
      destruct (shuf R g1 (length X)) as [ix g2]. cbn [fst snd] in *.
      apply (wp_ofold (clf_core a L nf)).
      - constructor; done.
      - intros i [[[g' f'] s'] c'] Hi Hc'. assert (i < length X)%nat as Hlt.
        { rewrite Hperm in Hi. apply elem_of_seq in Hi. lia. }
        pose proof (Forall2_length _ _ _ HF) as Elo.
        destruct (vget_ret_lt X i Hlt) as (x & Ex & ->). cbn [obind].
        destruct (vget_ret_lt y i) as (yi & Ey & ->); [lia|]. cbn [obind].
        destruct (vget_ret_lt oy i) as (oi & Eo & ->); [lia|]. cbn [obind].
        destruct (Forall2_lookup_lr _ _ _ _ _ _ HF Ey Eo) as [(ol & -> & Hol) Hne].
        eapply Forall_lookup_1 in Hy; [|exact Ey]. eapply Forall_lookup_1 in HX; [|exact Ex].
        rewrite <- (Z2Nat.id yi) by lia.
        eapply wp_mono; [apply classifier_update_spec; try done; lia|]. by intros st' [? _].
    Qed.
    Lemma clf_epochs_spec p X y epochs n_jobs tile st :
      clf_core a L nf st -> Forall (v_ok vw nf) X -> length y = length X -> Forall (fun v => 0 <= v < Z.of_nat L) y ->
      tile_known tile -> ((2 <= L)%nat \/ U) -> (T * 2 <= int_max \/ U) ->
      wp U V (ofor 0 epochs st (fun _ st => clf_epoch S A p X y (Z.of_nat L) (Z.of_nat opl) T (ca_max_weight a) N (ca_boost a) tile n_jobs st))
        (clf_core a L nf).
    Proof.
      intros Hc HX Hly Hy Htile HL HT2. apply (wp_ofor (fun _ => clf_core a L nf)); [done|]. intros i st' _ Hc'. by apply clf_epoch_spec.
    Qed.
  End Clf.

  (** ** Regressor *)
  Section Reg.
    Context (a : reg_args) (nf : nat) (Ha : reg_valid a) (HN : N = ra_states a).
    Notation n := (reg_n a).
    Notation T := (ra_threshold a).
    Definition step_response (s : ta) (x : smp) : Z := clamp 0 T (total_votes n (fires vw nf s x) (weight_of (ta_weights s))).
    (** feedback given when the response was [err] too high *)
    Definition reg_kind (err : Z) : Z := if err <? 0 then 1 else if 0 <? err then -1 else 0.
    (** a sequence of feedbacks to the clauses [js] *)
    Inductive reg_chain (ct : coin_tosser) (x : smp) (k : Z) (fire : nat -> bool) : list nat -> ta -> ta -> Prop :=
    | rch_nil s : reg_chain ct x k fire [] s s
    | rch_cons j js s s1 s2 : (j < n)%nat ->
        clause_effect A vw E1n E1p E2 (ra_weighted a) (ra_boost a) (ra_max_weight a) nf ct x j k (fire j) s s1 ->
        (forall i, (i < n)%nat -> i <> j -> same_at A vw nf i s s1) ->
        reg_chain ct x k fire js s1 s2 -> reg_chain ct x k fire (j :: js) s s2.
    Lemma reg_chain_app ct x k fire js js' s s1 s2 :
      reg_chain ct x k fire js s s1 -> reg_chain ct x k fire js' s1 s2 -> reg_chain ct x k fire (js ++ js') s s2.
    Proof. induction 1; [done|]. intros. econstructor; eauto. Qed.
    (** clauses which were not picked are untouched *)
    Lemma reg_chain_others ct x k fire js s s' i : reg_chain ct x k fire js s s' -> (i < n)%nat -> i ∉ js -> same_at A vw nf i s s'.
    Proof.
      induction 1 as [|j js s s1 s2 Hj He Ho Hc IH]; intros Hi Hin; [apply same_at_refl|].
      eapply same_at_trans; [apply Ho; [done|set_solver]|]. apply IH; [done|set_solver].
    Qed.
    Definition hits_good (bm : bool) (loss : float32 -> float32) : Prop :=
      forall g err, g_ok g -> - T <= err <= T ->
        wp U V (feedback_hits bm (Z.of_nat n) (loss (f32_div (f32_of_Z err) (f32_of_Z T))) g) (fun _ => True).
    Definition reg_update_post (bm : bool) (loss : float32 -> float32) (x : smp) (target : Z) (st st' : G * ta * cache) : Prop :=
      let '(g, s, c) := st in let '(_, s', _) := st' in
      let err := step_response s x - target in
      (err = 0 -> s' = s) /\
      exists js, Z.of_nat (length js) <= Z.of_nat n /\
        (exists g1, feedback_hits bm (Z.of_nat n) (loss (f32_div (f32_of_Z err) (f32_of_Z T))) g = Ret (Z.of_nat (length js), g1)) /\
        reg_chain (ca_ct c) x (reg_kind err) (fires vw nf s x) js s s'.

    Lemma feedback_hits_ok bm P g : g_ok g -> wp True True (feedback_hits bm (Z.of_nat n) P g) (fun '(h, g') => g_ok g' /\ 0 <= h <= Z.of_nat n).
    Proof.
      intros Hg. pose proof (g_next_ok R g_ok f_ok HR g Hg) as [_ Hg']. unfold feedback_hits, bm_binomial, bm_normal. destruct bm.
      - destruct (g_next R g) as [r g']. cbn [snd] in Hg'. apply wp_bind. eapply wp_mono; [|intros v Hv; exact Hv].
        destruct (to_u32 _); try done. cbn. split; [done|lia].
      - apply wp_bind. destruct (f_ge _ _).
        + apply wp_bind. destruct (to_u32 _); try done. cbn. split; [done|lia].
        + destruct (g_next R g) as [r g']. cbn. split; [done|lia].
    Qed.
    Lemma feedback_hits_spec bm loss g err : hits_good bm loss -> g_ok g -> - T <= err <= T ->
      wp U V (feedback_hits bm (Z.of_nat n) (loss (f32_div (f32_of_Z err) (f32_of_Z T))) g) (fun '(h, g') => g_ok g' /\ 0 <= h <= Z.of_nat n).
    Proof.
      intros Hh Hg He. specialize (Hh g err Hg He). pose proof (feedback_hits_ok bm (loss (f32_div (f32_of_Z err) (f32_of_Z T))) g Hg) as Ho.
      destruct (feedback_hits _ _ _ _); done.
    Qed.

    Lemma regressor_update_spec x target loss bm n_jobs tile g s c :
      reg_core a nf (g, s, c) -> v_ok vw nf x -> 0 <= target <= T -> tile_known tile -> hits_good bm loss ->
      wp U V (regressor_update S A x target T (Z.of_nat n) N (ra_boost a) (ra_max_weight a) loss bm n_jobs tile (g, s, c))
        (fun st' => reg_core a nf st' /\ reg_update_post bm loss x target (g, s, c) st').
    Proof.
      intros Hcore Hx Ht Htile Hhits. pose proof Hcore as [HI Hw [Hlen [Hfb0 Hsum0]] Hct Hrate Hg]. cbn [fst snd] in *.
      pose proof Ha as [Hty Hac _]. destruct Hty, Hac. pose proof (reg_n_bound a Ha) as Hb. destruct (reg_n_facts a Ha) as (_ & _ & Hn1).
      unfold regressor_update.
      destruct (calc_output_spec g_ok S HS A vw U V w N I E1n E1p E2 Lw n nf x c s 0 n n_jobs tile)
        as (c1 & Ec1 & F1 & S1 & K1 & L1 & O1); [done|done|done|lia|lia|]. change (Z.of_nat 0) with 0 in Ec1. rewrite Ec1. cbn [obind].
      assert (forall j, (j < n)%nat -> ca_out c1 !! j = Some (b2z (fires vw nf s x j))) as Hout.
      { intros j Hj. rewrite O1. rewrite decide_True by lia. done. }
      rewrite (sum_reg_spec (ra_weighted a) (ra_max_weight a) n T (ca_out c1) (ta_weights s) (fires vw nf s x));
        [|done|split; [done|apply rt_maxw]|done|lia|congruence|done]. cbn [obind].
      fold (step_response s x). assert (0 <= step_response s x <= T) as Hresp by (apply clamp_range; lia).
      set (err := step_response s x - target). assert (- T <= err <= T) as Herr by (unfold err; lia).
      rewrite ci32_ret by (unfold is_int, int_min, int_max in *; lia). cbn [obind].
      unfold train_regressor. apply wp_bind, wp_bind.
      pose proof (feedback_hits_spec bm loss g err Hhits Hg Herr) as Hfh.
      destruct (feedback_hits bm (Z.of_nat n) (loss (f32_div (f32_of_Z err) (f32_of_Z T))) g) as [[h g1]| | |] eqn:Efh; try done.
      destruct Hfh as [Hg1 Hh]. cbn [wp].
      assert (tcore g_ok A U V I (ra_weighted a) (ra_max_weight a) n nf (s, ca_ct c1, g1)) as Htc by (unfold tcore; rewrite K1; done).
      eapply wp_mono.
      { apply (wp_ofor (fun i '(s', ct', g') => tcore g_ok A U V I (ra_weighted a) (ra_max_weight a) n nf (s', ct', g') /\
          same_rate (ca_ct c1) ct' /\ (err = 0 -> s' = s) /\
          exists js, length js = i /\ reg_chain (ca_ct c) x (reg_kind err) (fires vw nf s x) js s s')).
        - split; [done|]. split; [done|]. split; [done|]. exists []. split; [done|constructor].
        - intros i [[s1 ct1] g2] Hi (Hc1 & Hr1 & H0 & js & Ejs & Hch). unfold draw_mod. rewrite Nat2Z.id.
          assert (g_ok g2) as Hg2 by apply Hc1. pose proof (g_next_ok R g_ok f_ok HR g2 Hg2) as [Hr Hg3].
          destruct (g_next R g2) as [r g3]. cbn [fst snd] in *. destruct (Nat.eqb_spec n 0) as [?|Hn0]; [lia|]. cbn [obind].
          pose proof (Z.mod_pos_bound r (Z.of_nat n) ltac:(lia)) as Hmod.
          set (j := Z.to_nat (r mod Z.of_nat n)). assert (j < n)%nat as Hj by (unfold j; lia).
          assert (tcore g_ok A U V I (ra_weighted a) (ra_max_weight a) n nf (s1, ct1, g3)) as Hc1' by (unfold tcore in *; tauto).
          assert (wp U V (if err <? 0 then give_type1 A (ra_boost a) N (ra_max_weight a) x (ca_out c1) j s1 ct1 g3
            else if 0 <? err then let* c0 := vget (ca_out c1) j in
              if negb (c0 =? 0) then let* s2 := give_type2 A x j s1 in Ret (s2, ct1, g3) else Ret (s1, ct1, g3)
            else Ret (s1, ct1, g3)) (fun st' =>
              step_post g_ok A vw U V I E1n E1p E2 (ra_weighted a) (ra_boost a) (ra_max_weight a) n nf x (fires vw nf s x) (reg_kind err) j s1 ct1 st' /\
              (err = 0 -> st'.1.1 = s1))) as Hstep.
          { unfold reg_kind. destruct (Z.ltb_spec err 0).
            - eapply wp_mono; [eapply (give_type1_spec g_ok A vw U V w N I E1n E1p E2 Lw); try done|].
              { split; [done|apply rt_maxw]. } intros st' Hst'. split; [done|]. intros; lia.
            - destruct (Z.ltb_spec 0 err).
              + rewrite (vget_ret _ j _ (Hout j Hj)). cbn [obind]. destruct (fires vw nf s x j) eqn:Ef; cbn [b2z Z.eqb negb].
                * eapply wp_mono; [eapply (give_type2_spec g_ok A vw U V w N I E1n E1p E2 Lw); try done|].
                  { split; [done|apply rt_maxw]. } intros st' Hst'. split; [done|]. intros; lia.
                * apply wp_ret. split; [|done]. apply no_feedback; auto; done.
              + apply wp_ret. split; [|done]. apply no_feedback; auto; lia. }
          eapply wp_mono; [exact Hstep|]. intros [[s2 ct2] g4] ((Hc2 & Hr2 & He2 & Ho2) & H02). cbn [fst] in H02.
          split; [done|]. split; [unfold same_rate in *; intuition congruence|]. split; [intros E0; rewrite H02 by done; auto|].
          exists (js ++ [j]). split; [rewrite app_length; cbn; lia|].
          eapply reg_chain_app; [exact Hch|]. econstructor; [done| |exact Ho2|constructor].
          eapply (clause_effect_frame g_ok A vw U V w N I E1n E1p E2 Lw); [|apply same_at_refl|apply same_at_refl|exact He2].
          rewrite <- K1. unfold same_rate in *; intuition congruence. }
      intros [[s2 ct2] g2] ((HI2 & Hw2 & Hct2 & Hg2) & Hr2 & H0 & js & Ejs & Hch). cbn [obind wp].
      split.
      - constructor; cbn [fst snd ca_ct ca_out ca_fb ca_sum]; try done; [split; [congruence|split; congruence]|].
        destruct Hrate as (ct0 & E0 & Hr0). exists ct0. split; [done|]. rewrite K1 in Hr2. unfold same_rate in *; intuition congruence.
      - cbn [reg_update_post]. split; [done|]. exists js. split; [lia|]. split; [|done].
        exists g1. fold err. rewrite Efh, Ejs. f_equal. f_equal. lia.
    Qed.
    Lemma reg_epoch_spec X y loss bm n_jobs tile st :
      reg_core a nf st -> Forall (v_ok vw nf) X -> length y = length X -> Forall (fun v => 0 <= v <= T) y ->
      tile_known tile -> hits_good bm loss ->
      wp U V (reg_epoch S A X y T (Z.of_nat n) N (ra_boost a) (ra_max_weight a) loss bm n_jobs tile st) (reg_core a nf).
    Proof.
      intros Hc HX Hly Hy Htile Hh. destruct st as [[g s] c]. unfold reg_epoch. pose proof Hc as [HI Hw Hl Hct Hrate Hg]. cbn [fst snd] in *.
      pose proof (shuf_ok R g_ok f_ok HR g (length X) Hg) as [Hperm Hg2].
      destruct (shuf R g (length X)) as [ix g2]. cbn [fst snd] in *.
      apply (wp_ofold (reg_core a nf)).
      - constructor; done.
      - intros i [[g' s'] c'] Hi Hc'. assert (i < length X)%nat as Hlt.
        { rewrite Hperm in Hi. apply elem_of_seq in Hi. lia. }
        destruct (vget_ret_lt X i Hlt) as (x & Ex & ->). cbn [obind].
        destruct (vget_ret_lt y i) as (yi & Ey & ->); [lia|]. cbn [obind].
        eapply Forall_lookup_1 in Hy; [|exact Ey]. eapply Forall_lookup_1 in HX; [|exact Ex].
        eapply wp_mono; [apply regressor_update_spec; try done; lia|]. by intros st' [? _].
    Qed.
    Lemma reg_epochs_spec X y loss bm epochs n_jobs tile st :
      reg_core a nf st -> Forall (v_ok vw nf) X -> length y = length X -> Forall (fun v => 0 <= v <= T) y ->
      tile_known tile -> hits_good bm loss ->
      wp U V (ofor 0 epochs st (fun _ st => reg_epoch S A X y T (Z.of_nat n) N (ra_boost a) (ra_max_weight a) loss bm n_jobs tile st))
        (reg_core a nf).
    Proof. intros. apply (wp_ofor (fun _ => reg_core a nf)); [done|]. intros i st' _ Hc'. by apply reg_epoch_spec. Qed.
  End Reg.
End Update.
