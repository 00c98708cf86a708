(** * The effect of training on one sample: partial_fit of a fitted estimator with a single sample and one epoch. *)
From Verif Require Export Trace.
From Coq Require Import Permutation.
From stdpp Require Import list.
Local Open Scope Z_scope.

(** ** Feedback rules, common to both algorithms, in terms of automaton states *)
(** number of features k < nf for which [f] holds; sum of [d k] over them *)
Definition how_many (nf : nat) (f : nat -> bool) : nat := length (List.filter f (seq 0 nf)).
Definition sum_below (nf : nat) (d : nat -> nat) : nat := list_sum (map d (seq 0 nf)).
(** [h] is one of the numbers of automata a Type I feedback may pick among [nf] literals when the specificity is [s]:
    what the coin tosser computes from nf / s, see [toss_count_bounds] in FloatFacts for its value *)
Definition toss_count (s : float32) (nf : nat) (h : Z) : Prop :=
  exists ct, ct_make (f32_div f32_one s) (Z.of_nat nf) = Ret ct /\
    (h = u32 (ct_floor ct) \/ h = u32 (ct_floor ct + 1) /\ 0 < ct_thr ct).
(** [d] moves were made for an admissible number of hits (a number past the int range counts as negative: no move) *)
Definition moves (H : Z -> Prop) (d : nat) : Prop := exists h, H h /\ (Z.of_nat d = h \/ 2 ^ 31 <= h /\ d = 0%nat).
Section Rules.
  Context {R : rnd} {A : algo R} (vw : aview A).
  Notation ta := (tastate (a_pol A)).
  Notation smp := (a_smp A).
  (** states of the automata of clause [j], feature [k]: literal x_k and literal not x_k *)
  Definition pos_state (s : ta) (j k : nat) : Z := nm_cell (ta_matrix s) (2 * j) k.
  Definition neg_state (s : ta) (j k : nat) : Z := nm_cell (ta_matrix s) (2 * j + 1) k.
  (** automata, included literals and weight of clause [j] are as before *)
  Definition clause_untouched (nf j : nat) (s s' : ta) : Prop :=
    (forall k, (k < nf)%nat -> pos_state s' j k = pos_state s j k /\ neg_state s' j k = neg_state s j k /\
       v_inc vw (ta_matrix s') (ta_pol s') j k = v_inc vw (ta_matrix s) (ta_pol s) j k /\
       v_incn vw (ta_matrix s') (ta_pol s') j k = v_incn vw (ta_matrix s) (ta_pol s) j k) /\
    weight_of (ta_weights s') j = weight_of (ta_weights s) j.
  (** Type I, firing clause: true literals up (always with boost, else unless tossed), false literals down if tossed *)
  Definition type1_fired_rule (H : Z -> Prop) (N : Z) (boost : bool) (nf : nat) (x : smp) (j : nat) (s s' : ta) : Prop :=
    exists tp tn : nat -> bool, H (Z.of_nat (how_many nf tp)) /\ H (Z.of_nat (how_many nf tn)) /\ forall k, (k < nf)%nat ->
      pos_state s' j k = type1_fired boost N (v_x vw x k) (tp k) (pos_state s j k) /\
      neg_state s' j k = type1_fired boost N (negb (v_x vw x k)) (tn k) (neg_state s j k).
  (** Type I, silent clause: an admissible number of moves down, each stopping at -N, is spread over the automata of either kind *)
  Definition type1_silent_rule (H : Z -> Prop) (N : Z) (nf : nat) (j : nat) (s s' : ta) : Prop :=
    exists dp dn : nat -> nat, moves H (sum_below nf dp) /\ moves H (sum_below nf dn) /\ forall k, (k < nf)%nat ->
      pos_state s' j k = Nat.iter (dp k) (down N) (pos_state s j k) /\
      neg_state s' j k = Nat.iter (dn k) (down N) (neg_state s j k).
  (** Type II, firing clause: excluded false literals one step up *)
  Definition type2_rule (nf : nat) (x : smp) (j : nat) (s s' : ta) : Prop :=
    forall k, (k < nf)%nat ->
      pos_state s' j k = type2 (v_x vw x k) (pos_state s j k) /\
      neg_state s' j k = type2 (negb (v_x vw x k)) (neg_state s j k).
  (** feedback [kind] (1 = Type I, -1 = Type II, 0 = none) to clause [j] *)
  Definition clause_rule (H : Z -> Prop) (N : Z) (weighted boost : bool) (maxw : Z) (nf : nat) (x : smp) (j : nat) (kind : Z) (fired : bool) (s s' : ta) : Prop :=
    let w := weight_of (ta_weights s) j in
    let w' := weight_of (ta_weights s') j in
    if kind =? 1 then
      if fired then type1_fired_rule H N boost nf x j s s' /\ w' = weight_up weighted maxw w
      else type1_silent_rule H N nf j s s' /\ w' = w
    else if (kind =? -1) && fired then type2_rule nf x j s s' /\ w' = weight_down w
    else clause_untouched nf j s s'.
End Rules.

(** the algorithms, with the numbers of states for which they keep their automata in range *)
Inductive trains_well (R : rnd) (N : Z) : forall A : algo R, aview A -> Prop :=
| tw_classic : trains_well R N (classic R) (cl_view R)
| tw_bitwise : 2 <= N -> trains_well R N (Algo.bitwise R) (bw_view R).
Lemma trains_well_algo R N A vw : trains_well R N A vw -> tsetlini_algo R A vw.
Proof. by intros [|]; constructor. Qed.

(** rules satisfied by an algorithm's feedback *)
Record rules {R} {A : algo R} (vw : aview A) (N : Z)
    (E1n : nat -> coin_tosser -> a_smp A -> nat -> amp A -> amp A -> Prop)
    (E1p : bool -> nat -> coin_tosser -> a_smp A -> nat -> amp A -> amp A -> Prop)
    (E2 : nat -> a_smp A -> nat -> amp A -> amp A -> Prop) : Prop := {
  ru_1p : forall boost nf ct x j (s s' : tastate (a_pol A)), E1p boost nf ct x j (EstTrain.mp A s) (EstTrain.mp A s') -> type1_fired_rule vw (hits_of ct) N boost nf x j s s';
  ru_1n : forall nf ct x j (s s' : tastate (a_pol A)),
    E1n nf ct x j (EstTrain.mp A s) (EstTrain.mp A s') -> type1_silent_rule (hits_of ct) N nf j s s';
  ru_2 : forall nf x j (s s' : tastate (a_pol A)), E2 nf x j (EstTrain.mp A s) (EstTrain.mp A s') -> type2_rule vw nf x j s s';
  ru_same : forall nf j (s s' : tastate (a_pol A)), same_at A vw nf j s s' -> clause_untouched vw nf j s s' }.

Lemma how_many_S nf f : how_many (S nf) f = (how_many nf f + if f nf then 1 else 0)%nat.
Proof. unfold how_many. rewrite seq_S, List.filter_app, app_length. cbn. destruct (f nf); done. Qed.
Lemma sum_below_S nf d : sum_below (S nf) d = (sum_below nf d + d nf)%nat.
Proof. unfold sum_below. rewrite seq_S, map_app, list_sum_app. cbn. lia. Qed.
Lemma how_many_ext nf f g : (forall k, (k < nf)%nat -> f k = g k) -> how_many nf f = how_many nf g.
Proof. induction nf as [|n IH]; intros H; [done|]. rewrite !how_many_S, IH, H by auto. done. Qed.
Lemma sum_below_ext nf f g : (forall k, (k < nf)%nat -> f k = g k) -> sum_below nf f = sum_below nf g.
Proof. induction nf as [|n IH]; intros H; [done|]. rewrite !sum_below_S, IH, H by auto. done. Qed.
Lemma sum_below_add nf f g : sum_below nf (fun k => f k + g k)%nat = (sum_below nf f + sum_below nf g)%nat.
Proof. induction nf as [|n IH]; [done|]. rewrite !sum_below_S, IH. lia. Qed.
Lemma how_many_toss nf t : zo_list nf t -> how_many nf (toss t) = count_ones t.
Proof.
  revert t. induction nf as [|n IH]; intros t [Hl HF]; [by destruct t|].
  destruct t as [|a t _] using rev_ind; [done|]. rewrite app_length in Hl. cbn in Hl. apply Forall_app in HF as [HF Ha].
  rewrite Forall_singleton in Ha. assert (length t = n) as El by lia.
  rewrite how_many_S. unfold count_ones. rewrite filter_app, app_length. fold (count_ones t). rewrite <- IH by done.
  f_equal.
  - apply how_many_ext. intros k Hk. unfold toss. rewrite lookup_app_l by lia. done.
  - unfold toss. rewrite <- El, list_lookup_middle by done. rewrite filter_cons, filter_nil.
    destruct Ha as [-> | ->]; [|done]. by case_decide.
Qed.
Lemma sum_bits nf (t : nat -> bool) : sum_below nf (fun k => if t k then 1%nat else 0%nat) = how_many nf t.
Proof. induction nf as [|n IH]; [done|]. by rewrite sum_below_S, how_many_S, IH. Qed.
Lemma sum_one nf a : (a < nf)%nat -> sum_below nf (fun k => if Nat.eq_dec a k then 1%nat else 0%nat) = 1%nat.
Proof.
  induction nf as [|n IH]; intros H; [lia|]. rewrite sum_below_S. destruct (Nat.eq_dec a n) as [->|Hne].
  - rewrite (sum_below_ext _ _ (fun _ => 0%nat)).
    + clear. induction n as [|n IH]; [done|]. rewrite sum_below_S. lia.
    + intros k Hk. destruct (Nat.eq_dec n k); [lia|done].
  - rewrite IH; lia.
Qed.
Lemma sum_occ nf l : Forall (fun k => (k < nf)%nat) l -> sum_below nf (fun k => occ l k) = length l.
Proof.
  induction 1 as [|a l Ha HF IH].
  - cbn. induction nf as [|n IH]; [done|]. rewrite sum_below_S. cbn. lia.
  - rewrite (sum_below_ext _ _ (fun k => (if Nat.eq_dec a k then 1 else 0) + occ l k)%nat).
    + rewrite (sum_below_add nf (fun k => if Nat.eq_dec a k then 1%nat else 0%nat) (fun k => occ l k)), sum_one, IH by done. done.
    + intros k _. cbn [count_occ]. destruct (PeanoNat.Nat.eq_dec a k), (Nat.eq_dec a k); lia.
Qed.
Lemma hits_range ct h : hits_of ct h -> 0 <= h < 4294967296.
Proof. unfold u32. intros [->|[-> _]]; unfold u32; lia. Qed.
Lemma moves_wrap ct h d : hits_of ct h -> d = Z.to_nat (wrap_s 32 h) -> moves (hits_of ct) d.
Proof.
  intros H ->. pose proof (hits_range _ _ H) as Hr. exists h. split; [done|].
  unfold wrap_s. change (2 ^ (32 - 1)) with 2147483648. change (2 ^ 32) with 4294967296. change (2 ^ 31) with 2147483648. lia.
Qed.
Lemma moves_exact (H : Z -> Prop) d : H (Z.of_nat d) -> moves H d.
Proof. exists (Z.of_nat d). auto. Qed.
Lemma classic_rules R N : rules (cl_view R) N (cl_E1n R N) (cl_E1p R N) (cl_E2 R).
Proof.
  constructor.
  - intros boost nf ct x j s s' (t1 & t2 & Hz1 & Hz2 & H1 & H2 & H). exists (toss t1), (toss t2).
    rewrite !how_many_toss by done. done.
  - intros nf ct x j s s' (t1 & t2 & Hz1 & Hz2 & Hh1 & Hh2 & H).
    exists (fun k => if toss t1 k then 1%nat else 0%nat), (fun k => if toss t2 k then 1%nat else 0%nat).
    rewrite !sum_bits, !how_many_toss by done. split; [by apply moves_exact|]. split; [by apply moves_exact|]. intros k Hk.
    destruct (H k Hk) as [H1 H2]. unfold pos_state, neg_state. unfold EstTrain.mp in *; cbn [fst snd] in *. rewrite H1, H2.
    unfold type1_silent. destruct (toss t1 k), (toss t2 k); done.
  - intros nf x j s s' H. exact H.
  - intros nf j s s' [H Hw]. split; [|done]. intros k Hk. destruct (H k Hk) as [H1 H2]. cbn in H1, H2.
    injection H1 as H1. injection H2 as H2. unfold pos_state, neg_state. cbn. unfold auto_inc, auto_incn. cbn in *.
    rewrite ?Nat.add_0_r in *. rewrite H1, H2. done.
Qed.
Lemma bitwise_rules R N : rules (bw_view R) N (bw_E1n R N) (bw_E1p R N) (bw_E2 R).
Proof.
  constructor.
  - intros boost nf ct x j s s' (t1 & t2 & Hz1 & Hz2 & H1 & H2 & H). exists (toss t1), (toss t2).
    rewrite !how_many_toss by done. done.
  - intros nf ct x j s s' (h & l1 & l2 & Hh & Hl1 & Hl2 & HF1 & HF2 & H).
    exists (fun k => occ l1 k), (fun k => occ l2 k). rewrite !sum_occ by done.
    split; [by eapply moves_wrap|]. split; [by eapply moves_wrap|]. exact H.
  - intros nf x j s s' H. exact H.
  - intros nf j s s' [H Hw]. split; [|done]. intros k Hk. destruct (H k Hk) as [H1 H2]. cbn in H1, H2.
    unfold jv in H1, H2. unfold EstTrain.mp in H1, H2; cbn [fst snd] in H1, H2.
    injection H1 as H1 H3. injection H2 as H2 H4. unfold pos_state, neg_state. cbn. unfold pol_inc, pol_incn. cbn in *.
    rewrite ?Nat.add_0_r in *. rewrite H1, H2, H3, H4. done.
Qed.
Lemma effect_rule {R} {A : algo R} (vw : aview A) N E1n E1p E2 weighted boost maxw nf ct x j kind fired s s' :
  rules vw N E1n E1p E2 ->
  clause_effect A vw E1n E1p E2 weighted boost maxw nf ct x j kind fired s s' ->
  clause_rule vw (hits_of ct) N weighted boost maxw nf x j kind fired s s'.
Proof.
  intros Ru H. unfold clause_effect, clause_rule in *. destruct (kind =? 1).
  - destruct fired; destruct H as [H ->]; (split; [|done]); [by eapply ru_1p|by eapply ru_1n].
  - destruct ((kind =? -1) && _); [|by eapply ru_same]. destruct H as [H ->]. split; [|done]. by eapply ru_2.
Qed.
Lemma clause_rule_mono {R} {A : algo R} (vw : aview A) (H H' : Z -> Prop) N weighted boost maxw nf x j kind fired s s' :
  (forall h, H h -> H' h) -> clause_rule vw H N weighted boost maxw nf x j kind fired s s' ->
  clause_rule vw H' N weighted boost maxw nf x j kind fired s s'.
Proof.
  intros HH. unfold clause_rule. destruct (kind =? 1); [|done]. destruct fired; intros [Hr Hw]; (split; [|done]).
  - destruct Hr as (tp & tn & ? & ? & ?). exists tp, tn. auto.
  - destruct Hr as (dp & dn & (h1 & ? & ?) & (h2 & ? & ?) & ?). exists dp, dn.
    split; [by exists h1; auto|]. split; [by exists h2; auto|done].
Qed.
Lemma effect_rule_made {R} {A : algo R} (vw : aview A) N E1n E1p E2 s nf ct weighted boost maxw x j kind fired st st' :
  rules vw N E1n E1p E2 -> ct_make (f32_div f32_one s) (Z.of_nat nf) = Ret ct ->
  clause_effect A vw E1n E1p E2 weighted boost maxw nf ct x j kind fired st st' ->
  clause_rule vw (toss_count s nf) N weighted boost maxw nf x j kind fired st st'.
Proof.
  intros Ru Hct He. eapply clause_rule_mono; [|by eapply effect_rule]. intros h Hh. by exists ct.
Qed.
Lemma trains_well_laws {R} g_ok f_ok (HR : rnd_ok R g_ok f_ok) N c A vw : trains_well R N A vw -> counting_known c -> 1 <= N <= int_max ->
  exists I E1n E1p E2, (forall U V, laws A g_ok vw U V (width_of c N) N I E1n E1p E2) /\ rules vw N E1n E1p E2.
Proof.
  intros Hw Hc HN. destruct (wide_enough c N Hc HN) as [W1 W2]. destruct Hw as [|H2].
  - eexists _, _, _, _. split; [|apply classic_rules]. intros U V. by apply (classic_laws R g_ok f_ok HR).
  - eexists _, _, _, _. split; [|apply bitwise_rules]. intros U V. apply (bitwise_laws R g_ok f_ok HR); [done|lia].
Qed.

(** ** Updates and training calls in terms of these rules *)
Section Steps.
  Context {R : rnd} {A : algo R} (vw : aview A).
  Notation ta := (tastate (a_pol A)).
  Notation smp := (a_smp A).
  (** votes of label [l] during training (clauses without literals fire) *)
  Definition train_votes (a : clf_args) (nf : nat) (s : ta) (x : smp) (l : nat) : Z :=
    label_vote (Z.to_nat (ca_clauses a / 2)) (ca_threshold a) (fires vw nf s x) (ta_weights s) l.
  (** the feedback every clause gets in an update with sample [x] of label [t], opposite label [o] and float draws [draw] *)
  Definition clf_feedback (a : clf_args) (nf : nat) (draw : nat -> float32) (s : ta) (x : smp) (t o j : nat) : Z :=
    feedback_to (Z.to_nat (ca_clauses a / 2)) t o draw
      (target_thr (ca_threshold a) (train_votes a nf s x t)) (opposite_thr (ca_threshold a) (train_votes a nf s x o)) j.
  Definition clf_update (a : clf_args) (L nf : nat) (draw : nat -> float32) (x : smp) (t o : nat) (s s' : ta) : Prop :=
    forall j, (j < L * Z.to_nat (ca_clauses a / 2))%nat ->
      clause_rule vw (toss_count (ca_s a) nf) (ca_states a) (ca_weighted a) (ca_boost a) (ca_max_weight a) nf x j (clf_feedback a nf draw s x t o j) (fires vw nf s x j) s s'.
  (** successive updates with the listed samples; draws are consecutive draws of the float generator *)
  Inductive clf_updates (a : clf_args) (L nf : nat) : list (smp * Z) -> eF R * ta -> eF R * ta -> Prop :=
  | cups_nil st : clf_updates a L nf [] st st
  | cups_cons x t o vis f s s' st : (t < L)%nat -> (o < L)%nat -> o <> t ->
      clf_update a L nf (f_draw R f) x t o s s' ->
      clf_updates a L nf vis (f_iter R (2 * Z.to_nat (ca_clauses a / 2)) f, s') st ->
      clf_updates a L nf ((x, Z.of_nat t) :: vis) (f, s) st.
  (** the regressor: response before the update, kind of feedback, clauses that get it in turn *)
  Definition train_response (a : reg_args) (nf : nat) (s : ta) (x : smp) : Z :=
    clamp 0 (ra_threshold a) (total_votes (Z.to_nat (ra_clauses a / 2)) (fires vw nf s x) (weight_of (ta_weights s))).
  Inductive reg_picks (a : reg_args) (nf : nat) (x : smp) (kind : Z) (fire : nat -> bool) : list nat -> ta -> ta -> Prop :=
  | rp_nil s : reg_picks a nf x kind fire [] s s
  | rp_cons j js s s1 s2 : (j < Z.to_nat (ra_clauses a / 2))%nat ->
      clause_rule vw (toss_count (ra_s a) nf) (ra_states a) (ra_weighted a) (ra_boost a) (ra_max_weight a) nf x j kind (fire j) s s1 ->
      (forall i, (i < Z.to_nat (ra_clauses a / 2))%nat -> i <> j -> clause_untouched vw nf i s s1) ->
      reg_picks a nf x kind fire js s1 s2 -> reg_picks a nf x kind fire (j :: js) s s2.
  (** [k] is a number of picks computed, for some state of the generator, from the response's error [err] *)
  Definition pick_count (a : reg_args) (err : Z) (k : nat) : Prop :=
    exists loss (g g' : eG R), make_loss_fn (ra_loss a) (ra_C1 a) = Ret loss /\
      feedback_hits (ra_box_muller a) (ra_clauses a / 2) (loss (f32_div (f32_of_Z err) (f32_of_Z (ra_threshold a)))) g = Ret (Z.of_nat k, g').
  Definition reg_update (a : reg_args) (nf : nat) (x : smp) (y : Z) (s s' : ta) : Prop :=
    let r := train_response a nf s x in
    (r = y -> s' = s) /\
    (r <> y -> exists js, pick_count a (r - y) (length js) /\ (length js <= Z.to_nat (ra_clauses a / 2))%nat /\
      reg_picks a nf x (if r <? y then 1 else -1) (fires vw nf s x) js s s').
  Inductive reg_updates (a : reg_args) (nf : nat) : list (smp * Z) -> ta -> ta -> Prop :=
  | rups_nil s : reg_updates a nf [] s s
  | rups_cons x y vis s s1 s2 : 0 <= y <= ra_threshold a -> reg_update a nf x y s s1 -> reg_updates a nf vis s1 s2 ->
      reg_updates a nf ((x, y) :: vis) s s2.
End Steps.

Section Convert.
  Context {R : rnd} {A : algo R} (vw : aview A) (N : Z).
  Context (E1n : nat -> coin_tosser -> a_smp A -> nat -> amp A -> amp A -> Prop).
  Context (E1p : bool -> nat -> coin_tosser -> a_smp A -> nat -> amp A -> amp A -> Prop).
  Context (E2 : nat -> a_smp A -> nat -> amp A -> amp A -> Prop).
  Context (Ru : rules vw N E1n E1p E2).
  Lemma clf_trace_updates a L nf ct vis st st' : N = ca_states a -> ct_make (f32_div f32_one (ca_s a)) (Z.of_nat nf) = Ret ct ->
    clf_trace A vw E1n E1p E2 a L nf ct vis st st' -> clf_updates vw a L nf vis st st'.
  Proof.
    intros HN Hct. induction 1 as [|x t o vis f s f' s' st Ht Ho Hne [-> He] Htr IH]; [constructor|].
    econstructor; [exact Ht|exact Ho|exact Hne| |].
    - intros j Hj. rewrite <- HN. eapply effect_rule_made; [exact Ru|exact Hct|]. apply He. exact Hj.
    - replace (2 * Z.to_nat (ca_clauses a / 2))%nat with (clf_opl a + clf_opl a)%nat by (unfold clf_opl; lia). exact IH.
  Qed.
  Lemma reg_chain_picks a nf ct x kind fire js s s' : N = ra_states a -> ct_make (f32_div f32_one (ra_s a)) (Z.of_nat nf) = Ret ct ->
    reg_chain A vw E1n E1p E2 a nf ct x kind fire js s s' -> reg_picks vw a nf x kind fire js s s'.
  Proof.
    intros HN Hct. induction 1 as [|j js s s1 s2 Hj He Ho Hc IH]; [constructor|].
    econstructor; [exact Hj| | |exact IH].
    - rewrite <- HN. eapply effect_rule_made; [exact Ru|exact Hct|exact He].
    - intros i Hi Hne. eapply ru_same; [exact Ru|]. by apply Ho.
  Qed.
  Lemma reg_effect_update a nf ct loss x y s s' : N = ra_states a -> 0 <= ra_clauses a -> make_loss_fn (ra_loss a) (ra_C1 a) = Ret loss -> ct_make (f32_div f32_one (ra_s a)) (Z.of_nat nf) = Ret ct ->
    reg_update_effect A vw E1n E1p E2 a nf ct loss x y s s' -> reg_update vw a nf x y s s'.
  Proof.
    intros HN Hpos Hloss Hct [H0 (js & Hl & Hcnt & Hc)]. unfold reg_update, train_response.
    change (clamp 0 (ra_threshold a) _) with (step_response A vw a nf s x). set (r := step_response A vw a nf s x) in *.
    split; [intros E; apply H0; lia|]. intros Hne. exists js. split; [|split; [exact Hl|]].
    - destruct Hcnt as (g & g1 & Hcnt). exists loss, g, g1. split; [done|].
      unfold reg_n in Hcnt. rewrite Z2Nat.id in Hcnt; [exact Hcnt|]. apply Z.div_pos; lia.
    - apply reg_chain_picks in Hc; [|done|done]. unfold reg_kind in Hc.
      destruct (Z.ltb_spec (r - y) 0), (Z.ltb_spec r y); try lia; [exact Hc|].
      destruct (Z.ltb_spec 0 (r - y)); [exact Hc|lia].
  Qed.
  Lemma reg_trace_updates a nf ct loss vis s s' : N = ra_states a -> 0 <= ra_clauses a -> make_loss_fn (ra_loss a) (ra_C1 a) = Ret loss -> ct_make (f32_div f32_one (ra_s a)) (Z.of_nat nf) = Ret ct ->
    reg_trace A vw E1n E1p E2 a nf ct loss vis s s' -> reg_updates vw a nf vis s s'.
  Proof.
    intros HN Hpos Hloss Hct. induction 1 as [|x y vis s s1 s2 Hy He Htr IH]; [constructor|].
    econstructor; [exact Hy| |exact IH]. by eapply reg_effect_update.
  Qed.
End Convert.

(** ** The theorems *)
Section Main.
  Context {R : rnd} (g_ok : eG R -> Prop) (f_ok : eF R -> Prop) (HR : rnd_ok R g_ok f_ok).
  Context (S : sch) (HS : sch_ok S).
  Context (A : algo R) (vw : aview A).
  Notation est := (est (a_pol A) (eS S) (eG R) (eF R)).

  Ltac start_clf a := intros Hw Hc Hh Hd; pose proof (cc_valid _ _ Hc) as Ha; pose proof Ha as [Hty Hacc _];
    destruct (trains_well_laws g_ok f_ok HR (ca_states a) (ca_counting a) A vw Hw) as (I & E1n & E1p & E2 & Lw & Ru);
    [by destruct Hacc|destruct Hty, Hacc; unfold is_int in *; lia|];
    pose proof (clf_history_at g_ok f_ok HR S HS A vw _ _ I E1n E1p E2 Lw _ _ _ _ _ Hc eq_refl eq_refl Hh) as Hat; rewrite Hd in Hat;
    destruct Hat as [Hfit _].

  (** continued training, classifier *)
  Lemma clf_more_trace a p os rs (e e' : est) L nf X y ml n :
    trains_well R (ca_states a) A vw -> clf_created a p -> clf_history S A vw p os rs e -> clf_dims_of os rs = Some (L, nf) ->
    Forall (v_phys vw) X -> clf_partial_fit S A e X y ml n = Ret (S_OK, e') ->
    exists viss, length viss = n /\ Forall (fun vis => Permutation vis (zip X y)) viss /\
      clf_updates vw a L nf (concat viss) (e_fgen e, e_ta e) (e_fgen e', e_ta e').
  Proof.
    start_clf a. intros HX Q.
    destruct (clf_answers g_ok f_ok HR S HS A vw (trains_well_algo _ _ _ _ Hw) a p os rs e (CPartialFit A X y ml n) (CRStatus S_OK) e' Hc Hh HX) as [Han _].
    { cbn [clf_step]. rewrite Q. done. }
    rewrite Hd in Han. cbn [clf_answer] in Han. destruct Han as [[Hm _]|[_ E]]; [|done].
    unfold clf_partial_fit in Q. rewrite (clf_fitted_true g_ok f_ok S A vw True True _ _ I E1n E1p E2 (Lw True True) a Ha e L nf Hfit) in Q.
    rewrite (clf_checked_online g_ok S A vw g_ok f_ok True True I a e L nf X y ml n) in Q; [|by eauto 10|done|done|done].
    pose proof Hfit as (_ & Hdim & Hcore). destruct (cc_rate _ _ _ _ _ _ _ _ _ _ _ Hcore) as (ct & Hct & _).
    destruct Hm as [[[_ HXo] Hl] Hy].
    destruct (clf_online_trace g_ok f_ok HR A vw E1n E1p E2 S HS _ _ I (Lw True True) a L nf Ha eq_refl ct Hct
      (proj1 (clf_n_bound a L nf Ha _ Hdim)) e e' X y n S_OK Hfit HXo Hl Hy Q) as (viss & H1 & H2 & H3).
    exists viss. split; [done|]. split; [done|]. by eapply clf_trace_updates.
  Qed.
  (** one update; the opposite label comes from the next draw of the integer generator *)
  Lemma clf_one_update a p os rs (e e' : est) L nf x t ml :
    trains_well R (ca_states a) A vw -> clf_created a p -> clf_history S A vw p os rs e -> clf_dims_of os rs = Some (L, nf) ->
    v_phys vw x -> clf_partial_fit S A e [x] [t] ml 1 = Ret (S_OK, e') ->
    exists tn o, t = Z.of_nat tn /\ (tn < L)%nat /\ (o < L)%nat /\ o <> tn /\
      Z.of_nat o = (t + 1 + (g_next R (e_igen e)).1 mod (Z.of_nat L - 1)) mod Z.of_nat L /\
      clf_update vw a L nf (f_draw R (e_fgen e)) x tn o (e_ta e) (e_ta e').
  Proof.
    start_clf a. intros HX Q.
    destruct (clf_answers g_ok f_ok HR S HS A vw (trains_well_algo _ _ _ _ Hw) a p os rs e (CPartialFit A [x] [t] ml 1) (CRStatus S_OK) e' Hc Hh) as [Han _].
    { by constructor. } { cbn [clf_step]. rewrite Q. done. }
    rewrite Hd in Han. cbn [clf_answer] in Han. destruct Han as [[Hm _]|[_ E]]; [|done].
    unfold clf_partial_fit in Q. rewrite (clf_fitted_true g_ok f_ok S A vw True True _ _ I E1n E1p E2 (Lw True True) a Ha e L nf Hfit) in Q.
    rewrite (clf_checked_online g_ok S A vw g_ok f_ok True True I a e L nf [x] [t] ml 1) in Q; [|by eauto 10|by constructor|done|done].
    pose proof Hfit as (_ & Hdim & Hcore). destruct (cc_rate _ _ _ _ _ _ _ _ _ _ _ Hcore) as (ct & Hct & _).
    destruct Hm as [[[_ HXo] Hl] Hy]. rewrite Forall_singleton in HXo. rewrite Forall_singleton in Hy.
    pose proof (proj1 (clf_n_bound a L nf Ha _ Hdim)) as Hn. pose proof Hdim as [Hhas HpL Hpf HL1 Hcl].
    unfold clf_fit_online in Q. pose proof (P_opl a Ha _ Hhas) as Eo. destruct Hhas as [h_cl h_st h_s h_thr h_w h_mw h_b h_nj h_v h_ct h_tl _].
    destruct Hacc. rewrite HpL, Eo, h_thr, h_mw, h_st, h_s, h_b, h_tl, h_nj, h_v in Q. cbn [obind ofor ofold seq] in Q.
    apply obind_ret_inv in Q as ([[[g f] s] c] & Eq & Q). injection Q as <-. cbn [e_ta].
    apply obind_ret_inv in Eq as (? & Eq & Eq'). injection Eq' as ->.
    unfold clf_epoch in Eq. apply obind_ret_inv in Eq as ([oy g1] & Eg & Eq).
    destruct (clf_opl_facts a Ha) as (_ & _ & _ & Hopl). pose proof Hcore as [_ _ _ _ _ Hg Hf]. cbn [fst snd] in Hg, Hf.
    unfold generate_opposite_y in Eg. cbn [ofold] in Eg. apply obind_ret_inv in Eg as ([oy1 g2] & Eg & Eg'). cbn in Eg'. injection Eg' as -> ->.
    apply obind_ret_inv in Eg as ([o g3] & Eg & Eg'). cbn in Eg'. injection Eg' as <- ->.
    destruct (decide (2 <= L)%nat) as [HL2|HL2].
    2:{ exfalso. assert (L = 1%nat) as EL by lia. rewrite EL in Eg. unfold opposite_label in Eg.
        destruct (ci32 (t + 1)); [|done..]. cbn [obind] in Eg. destruct (g_next R (e_igen e)). by cbn in Eg. }
    rewrite (opposite_label_eq g_ok f_ok HR) in Eg; [|lia|unfold int_max in *; nia|done]. injection Eg as <- <-.
    pose proof (g_next_ok R g_ok f_ok HR _ Hg) as [Hr Hg1].
    destruct (opp_value_range t (Z.of_nat L) (g_next R (e_igen e)).1 ltac:(lia) ltac:(lia) ltac:(lia)) as [Ho Hne].
    set (g1 := (g_next R (e_igen e)).2) in *. pose proof (shuf_ok R g_ok f_ok HR g1 1 Hg1) as [Hperm Hg2].
    cbn [length] in Eq. destruct (shuf R g1 1) as [ix g2]. cbn [fst snd] in Hperm, Hg2.
    apply Permutation_sym, Permutation_length_1_inv in Hperm as ->. cbn [ofold] in Eq.
    unfold opp_value in Ho, Hne. 
    change (opp_value t (Z.of_nat L) (g_next R (e_igen e)).1) with ((t + 1 + (g_next R (e_igen e)).1 mod (Z.of_nat L - 1)) mod Z.of_nat L) in Eq.
    set (ov := (t + 1 + (g_next R (e_igen e)).1 mod (Z.of_nat L - 1)) mod Z.of_nat L) in *.
    assert (exists tn, t = Z.of_nat tn) as (tn & ->) by (exists (Z.to_nat t); lia).
    assert (exists on, ov = Z.of_nat on) as (on & Eov) by (exists (Z.to_nat ov); lia).
    rewrite Eov in *. change (vget [x] 0) with (Ret x) in Eq. change (vget [Z.of_nat tn] 0) with (Ret (Z.of_nat tn)) in Eq.
    change (vget [Z.of_nat on] 0) with (Ret (Z.of_nat on)) in Eq. cbn [obind] in Eq.
    exists tn, on. split; [done|]. split; [lia|]. split; [lia|]. split; [lia|]. split; [done|].
    apply obind_ret_inv in Eq as (st1 & Eq & Eq'). injection Eq' as ->.
    pose proof (classifier_update_spec g_ok f_ok HR S HS A vw True True _ _ I E1n E1p E2 (Lw True True) a L nf Ha Hn) as W.
    specialize (W x tn on (ca_n_jobs a) (ca_tile a) g2 (e_fgen e) (e_ta e) (e_cache e)).
    rewrite Eq in W. cbn [wp] in W. destruct W as [_ (_ & _ & He)]; try done; [by destruct Hcore|lia..|by right|].
    intros j Hj. eapply effect_rule_made; [exact Ru|exact Hct|].
    destruct (cc_rate _ _ _ _ _ _ _ _ _ _ _ Hcore) as (ct0 & E0 & Hr0). cbn [fst snd] in E0, Hr0. rewrite Hct in E0. injection E0 as <-.
    eapply (clause_effect_frame g_ok A vw True True _ _ I E1n E1p E2 (Lw True True)); [|apply same_at_refl|apply same_at_refl|by apply He].
    unfold same_rate in *; intuition congruence.
  Qed.

  (** an accepted fit initialises the estimator and then trains it *)
  Lemma clf_fit_is_init_and_train a p os rs (e e' : est) X y ml n : tsetlini_algo R A vw ->
    clf_created a p -> clf_history S A vw p os rs e -> Forall (v_phys vw) X -> clf_fit S A e X y ml n = Ret (S_OK, e') ->
    exists e0, clf_fit S A e X y ml 0 = Ret (S_OK, e0) /\ clf_partial_fit S A e0 X y ml n = Ret (S_OK, e').
  Proof.
    intros HA Hc Hh HX Q. destruct (clf_fit_split S A _ _ _ _ _ _ Q) as (e0 & He0).
    pose proof Q as Q'. rewrite He0 in Q'. change n with (0 + n)%nat in Q'. rewrite clf_online_split in Q'.
    apply obind_ret_inv in Q' as ([st e1] & E1 & _).
    assert (st = S_OK) as ->.
    { clear -E1. unfold clf_fit_online in E1. repeat (apply obind_ret_inv in E1 as (? & _ & E1)). 
      destruct x9 as [[[??]?]?]. by injection E1. }
    exists e1. rewrite He0. split; [done|].
    rewrite (clf_incremental g_ok f_ok HR S HS A vw HA a p os rs e e1 X y ml ml 0 n Hc Hh HX); [done|by rewrite He0].
  Qed.
  Lemma reg_fit_is_init_and_train a p os rs (e e' : est) X y n : tsetlini_algo R A vw ->
    reg_created a p -> reg_history S A vw p os rs e -> Forall (v_phys vw) X -> reg_fit S A e X y n = Ret (S_OK, e') ->
    exists e0, reg_fit S A e X y 0 = Ret (S_OK, e0) /\ reg_partial_fit S A e0 X y n = Ret (S_OK, e').
  Proof.
    intros HA Hc Hh HX Q. destruct (reg_fit_split S A _ _ _ _ _ Q) as (e0 & He0).
    pose proof Q as Q'. rewrite He0 in Q'. change n with (0 + n)%nat in Q'. rewrite reg_online_split in Q'.
    apply obind_ret_inv in Q' as ([st e1] & E1 & _).
    assert (st = S_OK) as ->.
    { clear -E1. unfold reg_fit_online in E1. repeat (apply obind_ret_inv in E1 as (? & _ & E1)).
      match type of E1 with context[let '(_, _) := ?t in _] => destruct t as [[??]?] end. by injection E1. }
    exists e1. rewrite He0. split; [done|].
    rewrite (reg_incremental g_ok f_ok HR S HS A vw HA a p os rs e e1 X y 0 n Hc Hh HX); [done|by rewrite He0].
  Qed.
  Ltac start_reg a := intros Hw Hc Hh Hd; pose proof (rc_valid _ _ Hc) as Ha; pose proof Ha as [Hty Hacc _];
    destruct (trains_well_laws g_ok f_ok HR (ra_states a) (ra_counting a) A vw Hw) as (I & E1n & E1p & E2 & Lw & Ru);
    [by destruct Hacc|destruct Hty, Hacc; unfold is_int in *; lia|];
    pose proof (reg_history_at g_ok f_ok HR S HS A vw _ _ I E1n E1p E2 Lw _ _ _ _ _ Hc eq_refl eq_refl Hh) as Hat; rewrite Hd in Hat;
    destruct Hat as [Hfit _].
  Lemma reg_more_trace a p os rs (e e' : est) nf X y n :
    trains_well R (ra_states a) A vw -> reg_created a p -> reg_history S A vw p os rs e -> reg_dims_of os rs = Some nf ->
    Forall (v_phys vw) X -> reg_partial_fit S A e X y n = Ret (S_OK, e') ->
    exists viss, length viss = n /\ Forall (fun vis => Permutation vis (zip X y)) viss /\
      reg_updates vw a nf (concat viss) (e_ta e) (e_ta e').
  Proof.
    start_reg a. intros HX Q.
    destruct (reg_answers g_ok f_ok HR S HS A vw (trains_well_algo _ _ _ _ Hw) a p os rs e (RPartialFit A X y n) (RRStatus S_OK) e' Hc Hh HX) as [Han _].
    { cbn [reg_step]. rewrite Q. done. }
    rewrite Hd in Han. cbn [reg_answer] in Han. destruct Han as [[Hm _]|[_ E]]; [|done].
    unfold reg_partial_fit in Q. rewrite (reg_fitted_true g_ok S A vw True True _ _ I E1n E1p E2 (Lw True True) a Ha e nf Hfit) in Q.
    rewrite (reg_checked_online g_ok S A vw g_ok True True I a e nf X y n) in Q; [|by eauto 10|done|done|done].
    pose proof Hfit as (_ & Hdim & Hcore). destruct (rc_rate _ _ _ _ _ _ _ _ _ Hcore) as (ct & Hct & _).
    destruct Hm as [[[_ HXo] Hl] Hy].
    destruct (reg_online_trace g_ok f_ok HR A vw E1n E1p E2 S HS _ _ I (Lw True True) a nf Ha eq_refl ct Hct
      e e' X y n S_OK Hfit HXo Hl Hy Q) as (loss & viss & H0 & H1 & H2 & H3).
    exists viss. split; [done|]. split; [done|]. eapply reg_trace_updates; try done. destruct Hacc; lia.
  Qed.
  Lemma reg_one_update a p os rs (e e' : est) nf x y :
    trains_well R (ra_states a) A vw -> reg_created a p -> reg_history S A vw p os rs e -> reg_dims_of os rs = Some nf ->
    v_phys vw x -> reg_partial_fit S A e [x] [y] 1 = Ret (S_OK, e') ->
    0 <= y <= ra_threshold a /\ reg_update vw a nf x y (e_ta e) (e_ta e').
  Proof.
    intros Hw Hc Hh Hd Hx Q. destruct (reg_more_trace a p os rs e e' nf [x] [y] 1 Hw Hc Hh Hd) as (viss & H1 & H2 & H3); [by constructor|done|].
    destruct viss as [|vis [|]]; try done. rewrite Forall_singleton in H2. cbn in H2.
    apply Permutation_sym, Permutation_length_1_inv in H2 as ->. cbn in H3.
    inversion H3 as [|? ? ? ? ? ? Hy Hu Hn]; subst. inversion Hn; subst. done.
  Qed.
End Main.
