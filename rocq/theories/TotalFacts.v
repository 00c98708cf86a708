(** * Absence of undefined behaviour and termination of every public call. *)
From Verif Require Import HistFacts LossFacts.
From Coq Require Import Reals Psatz.
From Flocq Require Import Core.Core.
From stdpp Require Import list.
Local Open Scope Z_scope.

(** ** The coin tosser *)
Section Ct.
  Context {R : rnd} (g_ok : eG R -> Prop).
  Lemma s_valid_spec s : SpecFloat.valid_binary 24 128 s = true -> s_valid s = true -> fin32 s /\ (1 <= val s)%R.
  Proof. intros Hv H. apply s_check_iff in H as [Hf H1]; [|done]. done. Qed.
  Lemma ct_good_safe s (nf : nat) : SpecFloat.valid_binary 24 128 s = true -> s_valid s = true -> Z.of_nat nf <= int_max ->
    ct_good g_ok False True s nf.
  Proof.
    intros Hv Hs Hn. destruct (s_valid_spec s Hv Hs) as [Fs H1]. unfold ct_good.
    destruct (ct_make_spec s (Z.of_nat nf) Fs H1) as (thr & -> & Ht & Hz); [lia|]. cbn [wp]. rewrite Nat2Z.id.
    split; [by unfold ct_len; cbn [ct_c1 ct_c2]; rewrite !replicate_length|]. split; [left|by right]. intros ->. cbn [ct_floor ct_thr].
    assert (toss_mean s 0 = 0%R) as E0 by (unfold toss_mean; rewrite rne_0, Rmult_0_l; apply rne_0).
    change (Z.of_nat 0) with 0 in *. rewrite E0 in *. rewrite Zfloor_IZR in *. split; [done|].
    destruct (Z.eq_dec thr 0) as [|Hnz]; [done|]. exfalso. apply Hz; [lia|done].
  Qed.
  Lemma ct_good_total s (nf : nat) : SpecFloat.valid_binary 24 128 s = true -> s_valid s = true -> Z.of_nat nf <= 16777216 ->
    fair R g_ok nf -> ct_good g_ok False False s nf.
  Proof.
    intros Hv Hs Hn Hf. pose proof (ct_good_safe s nf Hv Hs ltac:(unfold int_max; lia)) as Hg. destruct (s_valid_spec s Hv Hs) as [Fs H1]. unfold ct_good in *.
    destruct (ct_make (f32_div f32_one s) (Z.of_nat nf)) as [ct| | |] eqn:Ec; cbn [wp] in *; try done.
    - destruct Hg as (G1 & G2 & _). split; [done|]. split; [done|]. left. split; [|split; [done|lia]].
      destruct (ct_make_spec s (Z.of_nat nf) Fs H1) as (thr & Em & Ht & _); [unfold int_max; lia|]. rewrite Em in Ec. injection Ec as <-.
      destruct (ct_hits_spec s nf _ (u32 (Zfloor (toss_mean s (Z.of_nat nf)))) Fs H1 Hn Em (or_introl eq_refl)) as [_ Hb].
      destruct (toss_mean_bounds s (Z.of_nat nf) Fs H1) as [Hq Hq2]; [unfold int_max; lia|].
      assert (0 <= Zfloor (toss_mean s (Z.of_nat nf)) <= 2147483648) as Hfl.
      { split; [apply Zfloor_lub; lra|]. apply le_IZR. eapply Rle_trans; [apply Zfloor_lb|lra]. }
      unfold ct_hits_le. cbn [ct_floor ct_thr] in *. unfold u32 in Hb. rewrite Z.mod_small in Hb by lia. split; [lia|].
      destruct (Z.ltb_spec 0 thr) as [Hp|Hp]; [|lia].
      destruct (ct_hits_spec s nf _ (u32 (Zfloor (toss_mean s (Z.of_nat nf)) + 1)) Fs H1 Hn Em) as [_ Hb']; [right; split; [done|exact Hp]|].
      unfold u32 in Hb'. rewrite Z.mod_small in Hb' by lia. lia.
    - destruct (ct_make_spec s (Z.of_nat nf) Fs H1) as (thr & Em & Ht & _); [unfold int_max; lia|]. congruence.
  Qed.
End Ct.

(** ** Sizes *)
Definition sizes_fit (rows nf : Z) : Prop := rows * (nf + 64) < 1073741824.
Lemma nm_fits_simple w rows cols : (w = 8 \/ w = 16 \/ w = 32) -> (1 <= rows)%nat -> sizes_fit (Z.of_nat rows) (Z.of_nat cols) -> nm_fits w rows cols.
Proof.
  unfold sizes_fit, nm_fits. intros Hw Hr H. split; [done|].
  assert (Z.of_nat cols + 64 < 1073741824) as Hc by nia. set (c := Z.of_nat cols) in *. set (r := Z.of_nat rows) in *.
  assert (0 <= c) by lia. assert (1 <= r) by lia.
  assert (forall b, b = 1 \/ b = 2 \/ b = 4 -> (c * b + 63) / 64 * (64 / b) <= c + 64) as Hk.
  { intros b [->|[->| ->]]; [change (64 / 1) with 64|change (64 / 2) with 32|change (64 / 4) with 16];
      match goal with |- ?q / 64 * _ <= _ => pose proof (Z.mul_div_le q 64 ltac:(lia)); lia end. }
  assert (forall b, b = 1 \/ b = 2 \/ b = 4 -> 0 <= (c * b + 63) / 64 * (64 / b)) as Hk0.
  { intros b Hb. apply Z.mul_nonneg_nonneg; apply Z.div_pos; lia. }
  assert (exists b, w / 8 = b /\ (b = 1 \/ b = 2 \/ b = 4)) as (b & -> & Hb).
  { destruct Hw as [->|[->| ->]]; eexists; (split; [reflexivity|]); vm_compute; auto. }
  specialize (Hk b Hb). specialize (Hk0 b Hb). split; [destruct Hb as [->|[->| ->]]; lia|]. split; nia.
Qed.
Lemma bm_fits_simple rows cols : (1 <= rows)%nat -> sizes_fit (Z.of_nat rows) (Z.of_nat cols) -> bm_fits 64 rows cols.
Proof.
  unfold sizes_fit, bm_fits. intros Hr H. split; [auto|]. change (64 / (Z.of_nat 64 / 8)) with 8.
  assert (Z.of_nat cols + 64 < 1073741824) as Hc by nia. split; [lia|].
  assert (0 <= (Z.of_nat cols + 511) / 512 * 8 <= Z.of_nat cols + 64) as Hk.
  { pose proof (Z.mul_div_le (Z.of_nat cols + 511) 512 ltac:(lia)). assert (0 <= (Z.of_nat cols + 511) / 512) by (apply Z.div_pos; lia). lia. }
  split; [lia|nia].
Qed.
Lemma v_fits_simple {R} (A : algo R) (vw : aview A) w rows cols : tsetlini_algo R A vw -> (w = 8 \/ w = 16 \/ w = 32) -> (1 <= rows)%nat ->
  sizes_fit (Z.of_nat rows) (Z.of_nat cols) -> v_fits vw w rows cols.
Proof. intros [] Hw Hr H; cbn; [|split]; auto using nm_fits_simple, bm_fits_simple. Qed.

Section Total.
  Context {R : rnd} (g_ok : eG R -> Prop) (f_ok : eF R -> Prop) (HR : rnd_ok R g_ok f_ok).
  Context (S : sch) (HS : sch_ok S).
  Context (A : algo R) (vw : aview A) (HA : tsetlini_algo R A vw).
  Notation est := (est (a_pol A) (eS S) (eG R) (eF R)).

  Lemma feat_ok nf X y : data_ok A vw nf X y -> features_of X = nf.
  Proof.
    destruct (algo_laws g_ok f_ok HR A vw 8 1 HA) as (I & E1n & E1p & E2 & Lw); [auto|done|].
    exact (features_of_ok g_ok A vw True True 8 1 I E1n E1p E2 (Lw _ _) nf X y).
  Qed.
  (** The ranges of data and parameters for which training is defined.  [d]: dimensions (labels, features) when already fitted.
      Labels are int values below INT_MAX; when the data is valid there are at least two labels, the threshold can be doubled,
      and the automata (clauses of all labels times features) number less than 2^30. *)
  Definition clf_fit_bounds (a : clf_args) (X : list (a_smp A)) (y : list Z) (ml : Z) : Prop :=
    Forall (fun v => int_min <= v < int_max) y /\
    (clf_fit_ok A vw X y -> ca_threshold a < 1073741824 /\ 2 <= n_labels y ml /\ sizes_fit (n_labels y ml * ca_clauses a) (Z.of_nat (features_of X))).
  Definition clf_bounds (a : clf_args) (d : option (nat * nat)) (o : clf_op A) : Prop :=
    match o with
    | CFit _ X y ml _ => clf_fit_bounds a X y ml
    | CPartialFit _ X y ml _ => match d with None => clf_fit_bounds a X y ml | Some (L, _) => (2 <= L)%nat /\ ca_threshold a < 1073741824 end
    | CEvaluate _ X y => evaluate_ok A vw d X y
    | _ => True
    end.
  (** a condition on the numbers of features that training works with *)
  Definition clf_wide (W : nat -> Prop) (d : option (nat * nat)) (o : clf_op A) : Prop :=
    match d with Some (_, nf) => W nf | None => True end /\
    match o with CFit _ X _ _ _ | CPartialFit _ X _ _ _ => W (features_of X) | _ => True end.

  Lemma clf_side_of U V a X y ml L nf : clf_valid a -> clf_fit_bounds a X y ml -> data_ok A vw nf X y -> Forall (fun v => 0 <= v) y ->
    L = Z.to_nat (n_labels y ml) -> ct_good g_ok U V (ca_s a) nf -> clf_side g_ok A vw U V (width_of (ca_counting a) (ca_states a)) a L nf.
  Proof.
    intros Ha [_ Hb] Hd Hy -> Hct. destruct Hb as (HT & HL & Hs); [by split; [exists nf|]|].
    rewrite (feat_ok _ _ _ Hd) in Hs. destruct (clf_opl_facts a Ha) as (Ecl & Eq & Hev & Hopl).
    pose proof Ha as [[] [] _]. unfold sizes_fit in *.
    assert (Z.of_nat (2 * (Z.to_nat (n_labels y ml) * clf_opl a)) = n_labels y ml * ca_clauses a) as Er by lia.
    constructor.
    - left. lia.
    - left. unfold int_max. lia.
    - left. unfold int_max. nia.
    - left. apply v_fits_simple; [done| |nia|unfold sizes_fit; by rewrite Er].
      destruct (wide_enough (ca_counting a) (ca_states a)) as [Hw _]; [done|unfold is_int in *; lia|done].
    - left. unfold int_max. nia.
    - done.
  Qed.
  Lemma clf_op_side_of U V a d o W : clf_valid a -> clf_bounds a d o -> clf_wide W d o ->
    (forall nf, W nf -> ct_good g_ok U V (ca_s a) nf) -> clf_op_side g_ok A vw U V (width_of (ca_counting a) (ca_states a)) a d o.
  Proof.
    intros Ha Hb [Hd Hw] Hct. destruct o as [X y ml n|X y ml n|x|X|x|X|X y]; cbn in *; try done.
    - split; [left; apply Hb|]. intros nf Hdk Hy. eapply clf_side_of; try done. apply Hct. by rewrite <- (feat_ok _ _ _ Hdk).
    - destruct d as [[L nf]|].
      + destruct Hb. split; left; [done|unfold int_max; lia].
      + split; [left; apply Hb|]. intros nf Hdk Hy. eapply clf_side_of; try done. apply Hct. by rewrite <- (feat_ok _ _ _ Hdk).
    - by left.
  Qed.

  Lemma clf_safe a p os rs e o : clf_created a p -> clf_typed a -> clf_history S A vw p os rs e -> clf_op_phys A vw o ->
    clf_bounds a (clf_dims_of os rs) o -> clf_wide (fun n => Z.of_nat n <= int_max) (clf_dims_of os rs) o ->
    wp False True (clf_step S A e o) (fun '(r, e') => clf_answer A vw a (clf_dims_of os rs) (e_ta e) o r).
  Proof.
    intros Hc Ht Hh Ho Hb Hw. pose proof (cc_valid _ _ Hc) as Ha. destruct (clf_hist_laws g_ok f_ok HR A vw HA a Ha) as (I & E1n & E1p & E2 & Lw).
    assert (forall nf, Z.of_nat nf <= int_max -> ct_good g_ok False True (ca_s a) nf) as Hct.
    { intros nf Hn. apply ct_good_safe; [apply Ht|apply Ha|done]. }
    eapply wp_mono; [apply (clf_call g_ok f_ok HR S HS A vw _ _ I E1n E1p E2 Lw False True a p os rs e o Hc eq_refl eq_refl Hh Ho)|].
    - intros L nf Ed. apply Hct. destruct Hw as [Hw _]. by rewrite Ed in Hw.
    - by eapply clf_op_side_of.
    - intros [r e'] (H & _). exact H.
  Qed.
  Lemma clf_total a p os rs e o : clf_created a p -> clf_typed a -> clf_history S A vw p os rs e -> clf_op_phys A vw o ->
    clf_bounds a (clf_dims_of os rs) o -> clf_wide (fun n => Z.of_nat n <= 16777216 /\ fair R g_ok n) (clf_dims_of os rs) o ->
    exists r e', clf_step S A e o = Ret (r, e') /\ clf_answer A vw a (clf_dims_of os rs) (e_ta e) o r.
  Proof.
    intros Hc Ht Hh Ho Hb Hw. pose proof (cc_valid _ _ Hc) as Ha. destruct (clf_hist_laws g_ok f_ok HR A vw HA a Ha) as (I & E1n & E1p & E2 & Lw).
    assert (forall nf, Z.of_nat nf <= 16777216 /\ fair R g_ok nf -> ct_good g_ok False False (ca_s a) nf) as Hct.
    { intros nf [Hn Hf]. by apply ct_good_total; [apply Ht|apply Ha|..]. }
    pose proof (clf_call g_ok f_ok HR S HS A vw _ _ I E1n E1p E2 Lw False False a p os rs e o Hc eq_refl eq_refl Hh Ho) as W.
    destruct (clf_step S A e o) as [[r e']| | |] eqn:E; cbn [wp] in W.
    - exists r, e'. split; [done|]. apply W; [|by eapply clf_op_side_of].
      intros L nf Ed. apply Hct. destruct Hw as [Hw _]. by rewrite Ed in Hw.
    - exfalso. apply W; [|by eapply clf_op_side_of]. intros L nf Ed. apply Hct. destruct Hw as [Hw _]. by rewrite Ed in Hw.
    - exfalso. apply W; [|by eapply clf_op_side_of]. intros L nf Ed. apply Hct. destruct Hw as [Hw _]. by rewrite Ed in Hw.
    - exfalso. apply W; [|by eapply clf_op_side_of]. intros L nf Ed. apply Hct. destruct Hw as [Hw _]. by rewrite Ed in Hw.
  Qed.

  (** ** Regressor *)
  (** the loss of any relative error is a number the feedback count can be computed from *)
  Definition loss_bounds (a : reg_args) : Prop :=
    ra_box_muller a = false /\ (ra_loss a = "L1+2"%string -> is_finite_sf (ra_C1 a) = true /\ (0 <= val (ra_C1 a) <= 1)%R).
  Lemma loss_tame a loss x : reg_typed a -> loss_bounds a -> make_loss_fn (ra_loss a) (ra_C1 a) = Ret loss -> fin32 x -> (Rabs (val x) <= 1)%R -> tame (loss x).
  Proof.
    intros Ht [_ Hl] E Hx Hb. destruct Ht.
    destruct (make_loss_cases _ _ _ E) as [[_ H]|[[_ H]|[[_ H]|[En H]]]]; rewrite H.
    - by apply fine_tame; [apply mae_fine|..].
    - by apply fine_tame; [apply mse_fine|..].
    - by apply berhu_tame.
    - destruct (Hl En). apply fine_tame; [apply l12_fine|..]; done.
  Qed.
  Lemma reg_hits_of a V : reg_valid a -> reg_typed a -> loss_bounds a -> reg_hits g_ok False V a.
  Proof.
    intros Ha Ht Hl loss E g err Hg He. pose proof Ha as [[] [] _]. unfold is_int in *. destruct (rel_err_spec err (ra_threshold a)) as (F & B & _); [unfold int_max in *; lia|done|].
    pose proof (loss_tame a loss _ Ht Hl E F ltac:(apply Rabs_le; lra)) as Hp. rewrite (proj1 Hl). unfold rel_err in Hp.
    destruct (reg_n_facts a Ha) as (Ecl & Eq & Hn1).
    destruct (hits_no_ub (R := R) (Z.of_nat (reg_n a)) _ g ltac:(unfold int_max in *; lia) Hp) as (h & g' & -> & _). done.
  Qed.
  Definition reg_bounds (a : reg_args) (d : option nat) (o : reg_op A) : Prop :=
    match o with
    | RFit _ X y _ => loss_bounds a /\ ((exists nf, data_ok A vw nf X y) -> sizes_fit (ra_clauses a) (Z.of_nat (features_of X)))
    | RPartialFit _ X y _ => loss_bounds a /\ match d with None => (exists nf, data_ok A vw nf X y) -> sizes_fit (ra_clauses a) (Z.of_nat (features_of X)) | Some _ => True end
    | _ => True
    end.
  Definition reg_wide (W : nat -> Prop) (d : option nat) (o : reg_op A) : Prop :=
    match d with Some nf => W nf | None => True end /\
    match o with RFit _ X _ _ | RPartialFit _ X _ _ => W (features_of X) | _ => True end.
  Lemma reg_side_of V a X y nf : reg_valid a -> reg_typed a -> loss_bounds a -> data_ok A vw nf X y ->
    sizes_fit (ra_clauses a) (Z.of_nat (features_of X)) -> ct_good g_ok False V (ra_s a) nf ->
    reg_side g_ok A vw False V (width_of (ra_counting a) (ra_states a)) a nf.
  Proof.
    intros Ha Ht Hl Hd Hs Hct. rewrite (feat_ok _ _ _ Hd) in Hs. destruct (reg_n_facts a Ha) as (Ecl & Eq & Hn1).
    pose proof Ha as [[] [] _]. unfold sizes_fit in *. assert (Z.of_nat (2 * reg_n a) = ra_clauses a) as Er by lia.
    constructor; [|left; unfold int_max; nia|done|by apply reg_hits_of].
    left. apply v_fits_simple; [done| |lia|unfold sizes_fit; by rewrite Er].
    destruct (wide_enough (ra_counting a) (ra_states a)) as [Hw _]; [done|unfold is_int in *; lia|done].
  Qed.
  Lemma reg_op_side_of V a d o W : reg_valid a -> reg_typed a -> reg_bounds a d o -> reg_wide W d o ->
    (forall nf, W nf -> ct_good g_ok False V (ra_s a) nf) -> reg_op_side g_ok A vw False V (width_of (ra_counting a) (ra_states a)) a d o.
  Proof.
    intros Ha Ht Hb [Hd Hw] Hct. destruct o as [X y n|X y n|x|X]; cbn in *; try done.
    - destruct Hb as [Hl Hb]. intros nf Hdk. eapply reg_side_of; try done; [by apply Hb; exists nf|]. apply Hct. by rewrite <- (feat_ok _ _ _ Hdk).
    - destruct Hb as [Hl Hb]. destruct d as [nf|].
      + by apply reg_hits_of.
      + intros nf Hdk. eapply reg_side_of; try done; [by apply Hb; exists nf|]. apply Hct. by rewrite <- (feat_ok _ _ _ Hdk).
  Qed.
  Lemma reg_safe a p os rs e o : reg_created a p -> reg_typed a -> reg_history S A vw p os rs e -> reg_op_phys A vw o ->
    reg_bounds a (reg_dims_of os rs) o -> reg_wide (fun n => Z.of_nat n <= int_max) (reg_dims_of os rs) o ->
    wp False True (reg_step S A e o) (fun '(r, e') => reg_answer A vw a (reg_dims_of os rs) (e_ta e) o r).
  Proof.
    intros Hc Ht Hh Ho Hb Hw. pose proof (rc_valid _ _ Hc) as Ha. destruct (reg_hist_laws g_ok f_ok HR A vw HA a Ha) as (I & E1n & E1p & E2 & Lw).
    assert (forall nf, Z.of_nat nf <= int_max -> ct_good g_ok False True (ra_s a) nf) as Hct.
    { intros nf Hn. apply ct_good_safe; [apply Ht|apply Ha|done]. }
    eapply wp_mono; [apply (reg_call g_ok f_ok HR S HS A vw _ _ I E1n E1p E2 Lw False True a p os rs e o Hc eq_refl eq_refl Hh Ho)|].
    - intros nf Ed. apply Hct. destruct Hw as [Hw _]. by rewrite Ed in Hw.
    - by eapply reg_op_side_of.
    - intros [r e'] (H & _). exact H.
  Qed.
  Lemma reg_total a p os rs e o : reg_created a p -> reg_typed a -> reg_history S A vw p os rs e -> reg_op_phys A vw o ->
    reg_bounds a (reg_dims_of os rs) o -> reg_wide (fun n => Z.of_nat n <= 16777216 /\ fair R g_ok n) (reg_dims_of os rs) o ->
    exists r e', reg_step S A e o = Ret (r, e') /\ reg_answer A vw a (reg_dims_of os rs) (e_ta e) o r.
  Proof.
    intros Hc Ht Hh Ho Hb Hw. pose proof (rc_valid _ _ Hc) as Ha. destruct (reg_hist_laws g_ok f_ok HR A vw HA a Ha) as (I & E1n & E1p & E2 & Lw).
    assert (forall nf, Z.of_nat nf <= 16777216 /\ fair R g_ok nf -> ct_good g_ok False False (ra_s a) nf) as Hct.
    { intros nf [Hn Hf]. by apply ct_good_total; [apply Ht|apply Ha|..]. }
    assert (forall nf, reg_dims_of os rs = Some nf -> ct_good g_ok False False (ra_s a) nf) as Hc1.
    { intros nf Ed. apply Hct. destruct Hw as [Hw _]. by rewrite Ed in Hw. }
    assert (reg_op_side g_ok A vw False False (width_of (ra_counting a) (ra_states a)) a (reg_dims_of os rs) o) as Hc2 by (by eapply reg_op_side_of).
    pose proof (reg_call g_ok f_ok HR S HS A vw _ _ I E1n E1p E2 Lw False False a p os rs e o Hc eq_refl eq_refl Hh Ho Hc1 Hc2) as W.
    destruct (reg_step S A e o) as [[r e']| | |]; cbn [wp] in W; try done. exists r, e'. split; [done|]. apply W.
  Qed.
End Total.
