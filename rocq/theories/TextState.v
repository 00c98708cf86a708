(** * What to_json_string writes: for every estimator that can be reached, the document can be written, and the text is read back. *)
From Verif Require Import FloatFacts.
From Verif Require Import StateProps.
From Verif Require Import TextIO.
From Verif Require Import JsonGrammar LexFacts NumFacts ParseProps DumpFacts DumpProps TextFacts.
From Coq Require Import ZArith Lia Sorting.Sorted.
From stdpp Require Import list.
Local Open Scope Z_scope.

Lemma ascii_utf8 s : forallb (fun z => z <? 128) (text s) = true -> utf8_string s.
Proof.
  intros H. exists (text s). assert (Forall (fun z => 0 <= z < 128) (text s)) as Hb.
  { apply list.Forall_forall. intros z Hz. rewrite forallb_forall in H. apply elem_of_list_In in Hz. specialize (H z Hz). apply Z.ltb_lt in H. split; [|done].
    unfold text in Hz. apply in_map_iff in Hz as (a & Ea & _). rewrite <- Ea. apply N2Z.is_nonneg. }
  split; [eapply Forall_impl; [exact Hb|]; intros z Hz; cbv beta in Hz; unfold scalar; lia|].
  clear H. induction Hb as [|z b Hz Hb IH]; [done|]. cbv beta in Hz. cbn [map concat]. unfold utf8 at 1. destruct (Z.ltb_spec z 128); [|lia]. cbn [app]. f_equal. exact IH.
Qed.
Ltac lit := apply ascii_utf8; reflexivity.

(** ** Lists of numbers *)
Lemma writable_uns l : Forall (fun z => 0 <= z < 2 ^ 64) l -> writable (JArr (map JUns l)).
Proof. intros H. apply writable_arr. apply Forall_map. exact H. Qed.
Lemma w32_uns l : Forall (fun z => 0 <= z < 4294967296) l -> writable (JArr (map JUns l)).
Proof. intros H. apply writable_uns. eapply Forall_impl; [exact H|]. intros z Hz. cbv beta in Hz. change (2 ^ 64) with 18446744073709551616. lia. Qed.
Lemma widened_valid x : SpecFloat.valid_binary 24 128 x = true -> SpecFloat.valid_binary 53 1024 (f64_of_f32 x) = true.
Proof.
  intros V. destruct (is_finite_sf x) eqn:F; [|by destruct x]. destruct (f64_of_f32_spec x (conj V F)) as [[V' _] _]. exact V'.
Qed.

(** ** Generators *)
Lemma mt_writable {V} (wr : V -> json) good g : mt_ok good g -> Forall (fun v => writable (wr v)) (mt_res g) -> writable (mt_to_json wr g).
Proof.
  intros [Hi _ _ Hw _] Hr. unfold mt_to_json. apply writable_object. repeat apply Forall_cons_2; [..|apply Forall_nil_2]; cbn [fst snd].
  - split; [lit|]. cbn [writable]. pose proof MTLEN_Z. change (2 ^ 64) with 18446744073709551616. lia.
  - split; [lit|]. apply writable_arr, Forall_map. exact Hr.
  - split; [lit|]. by apply w32_uns.
Qed.
Lemma irng_writable g : irng_ok g -> writable (irng_to_json g).
Proof.
  intros [H1 H2]. eapply mt_writable; [exact H1|]. eapply Forall_impl; [exact H2|]. intros z Hz. cbv beta in Hz. cbn [writable]. unfold w32 in Hz. change (2 ^ 64) with 18446744073709551616. lia.
Qed.
Lemma frng_writable f : frng_ok f -> writable (frng_to_json f).
Proof.
  intros [H1 H2]. eapply mt_writable; [exact H1|]. eapply Forall_impl; [exact H2|]. intros x [V _]. cbn [writable]. by apply widened_valid.
Qed.

(** ** Matrices *)
Lemma nm_writable m j : nm_good m -> nm_w m = 8 \/ nm_w m = 16 \/ nm_w m = 32 -> nm_to_json m = Ret j -> writable j.
Proof.
  intros (Hwf & _ & Hc) Hw E. rewrite nm_saved in E by done. injection E as <-. apply writable_object.
  repeat apply Forall_cons_2; [..|apply Forall_nil_2]; cbn [fst snd].
  - split; [lit|]. cbn [writable]. change (2 ^ 64) with 18446744073709551616. zdiv.
  - split; [lit|]. apply writable_arr, Forall_map, list.Forall_forall. intros r Hr%elem_of_seq. apply writable_arr, Forall_map. unfold nm_row. apply Forall_map, list.Forall_forall.
    intros c Hc'%elem_of_seq. cbn [writable]. specialize (Hc r c ltac:(lia) ltac:(lia)). unfold in_w in Hc.
    change (2 ^ 63) with 9223372036854775808. destruct Hw as [E|[E|E]]; rewrite E in Hc; cbn in Hc; lia.
Qed.
Lemma bm_writable p : bm_wf 64 p -> Z.of_nat (bm_rows p) < 2 ^ 64 -> Z.of_nat (bm_cols p) < 2 ^ 64 -> writable (bm_to_json p).
Proof.
  intros (_ & _ & Hb) Hr Hc. apply writable_object. repeat apply Forall_cons_2; [..|apply Forall_nil_2]; cbn [fst snd].
  - split; [lit|]. cbn [writable]. lia.
  - split; [lit|]. cbn [writable]. lia.
  - split; [lit|]. apply writable_arr, Forall_map. eapply Forall_impl; [exact Hb|]. intros b Hk%block_ok_lt. cbv beta in Hk. cbn [writable].
    change (2 ^ N.of_nat 64)%N with 18446744073709551616%N in Hk. change (2 ^ 64) with 18446744073709551616. lia.
Qed.

(** ** Learning state *)
Definition ta_writable {P} (C : pol_codec P) (s : tastate P) : Prop := exists j, ta_to_json C s = Ret j /\ writable j.
Lemma classic_writable w N (R : rnd) n nf m ws (p : unit) : (w = 8 \/ w = 16 \/ w = 32) -> cl_inv R w N n nf m p ->
  Forall (fun w => 0 <= w < 4294967296) ws -> ta_writable classic_codec (TA m ws p).
Proof.
  intros Hw (Hg & Ew & _) Hws. unfold ta_writable, ta_to_json. cbn [ta_matrix ta_weights ta_pol]. rewrite (nm_saved m) by apply Hg. cbn [obind]. eexists. split; [reflexivity|].
  apply writable_object. repeat apply Forall_cons_2; [..|apply Forall_nil_2]; cbn [fst snd].
  - split; [lit|]. eapply (nm_writable m); [done|by rewrite Ew|]. by rewrite nm_saved by apply Hg.
  - split; [lit|]. by apply w32_uns.
Qed.
Lemma bitwise_writable w (R : rnd) n nf m ws p : (w = 8 \/ w = 16 \/ w = 32) -> bw_struct R w n nf m p -> (0 < n)%nat -> Z.of_nat (2 * n) <= int_max ->
  Forall (fun w => 0 <= w < 4294967296) ws -> ta_writable bitwise_codec (TA m ws p).
Proof.
  intros Hw ((Hg & Hb & Hr1 & Hr2) & Ew & Er & Ec & _ & _) Hn Hn2 Hws. cbn [fst snd] in *.
  assert (Z.of_nat nf <= int_max) as Hnf by (rewrite <- Ec; apply alloc_cols; [apply Hg|lia]).
  unfold ta_writable, ta_to_json. cbn [ta_matrix ta_weights ta_pol]. rewrite (nm_saved m) by apply Hg. cbn [obind]. eexists. split; [reflexivity|].
  apply writable_object. cbn [bitwise_codec pc_write]. repeat apply Forall_cons_2; [..|apply Forall_nil_2]; cbn [fst snd].
  - split; [lit|]. eapply (nm_writable m); [done|by rewrite Ew|]. by rewrite nm_saved by apply Hg.
  - split; [lit|]. by apply w32_uns.
  - split; [lit|]. unfold int_max in *. apply bm_writable; [done|..]; change (2 ^ 64) with 18446744073709551616; lia.
Qed.

(** ** Parameters *)
Definition utf8_param (k : string) (v : pvalue) : Prop := utf8_string k /\ match v with PStr s => utf8_string s | _ => True end.
Definition utf8_params (p : params) : Prop := map_Forall utf8_param p.
Lemma params_writable p : storable_params p -> utf8_params p -> writable (params_to_json p).
Proof.
  intros Hs Hu. apply writable_object. apply list.Forall_forall. intros kv Hin. apply elem_of_list_fmap in Hin as ([k v] & -> & Hin). apply elem_of_map_to_list in Hin.
  destruct (Hu k v Hin) as [Hk Hv]. cbn [fst snd]. split; [done|]. specialize (Hs k v Hin).
  destruct v; cbn [pv_to_json writable storable] in *; try done.
  - unfold is_int, int_min, int_max in Hs. change (2 ^ 63) with 9223372036854775808. lia.
  - change (2 ^ 64) with 18446744073709551616. lia.
  - by apply widened_valid.
Qed.
Ltac ud := split; [lit|first [exact Logic.I|done|lit]].
Lemma clf_args_utf8 u : utf8_string (ca_counting u) -> utf8_params (clf_args_params u).
Proof.
  intros Hc. unfold utf8_params, clf_args_params. repeat (match goal with |- map_Forall _ (insert _ _ _) => apply map_Forall_insert_2 end); try ud.
  - destruct (ca_seed u); ud.
  - apply map_Forall_empty.
Qed.
Lemma reg_args_utf8 u : utf8_string (ra_counting u) -> utf8_string (ra_loss u) -> utf8_params (reg_args_params u).
Proof.
  intros Hc Hl. unfold utf8_params, reg_args_params. repeat (match goal with |- map_Forall _ (insert _ _ _) => apply map_Forall_insert_2 end); try ud.
  - destruct (ra_seed u); ud.
  - apply map_Forall_empty.
Qed.
Lemma clf_defaults_utf8 : utf8_params default_classifier_params.
Proof.
  unfold utf8_params, default_classifier_params. cbn [list_to_map foldr uncurry fst snd].
  repeat (match goal with |- map_Forall _ (insert _ _ _) => apply map_Forall_insert_2 end); [ud..|apply map_Forall_empty].
Qed.
Lemma reg_defaults_utf8 : utf8_params default_regressor_params.
Proof.
  unfold utf8_params, default_regressor_params. cbn [list_to_map foldr uncurry fst snd].
  repeat (match goal with |- map_Forall _ (insert _ _ _) => apply map_Forall_insert_2 end); [ud..|apply map_Forall_empty].
Qed.
Lemma key_kind_utf8 k t : key_kind k = Some t -> utf8_string k.
Proof.
  unfold key_kind. intros H.
  repeat match type of H with
  | context [String.eqb k ?s] => destruct (String.eqb_spec k s) as [->|]; [lit|]
  end. discriminate H.
Qed.

(** parameter sets returned by the factories *)
Definition clf_made_text (p : params) : Prop := exists hw rd,
  (exists u, clf_typed u /\ make_classifier_params_from_args hw rd u = Ret (Right p)) \/
  (exists t, make_classifier_params_from_text hw rd t = Ret (Right p)).
Definition reg_made_text (p : params) : Prop := exists hw rd,
  (exists u, reg_typed u /\ make_regressor_params_from_args hw rd u = Ret (Right p)) \/
  (exists t, make_regressor_params_from_text hw rd t = Ret (Right p)).

Lemma from_text_clf hw rd t p : make_classifier_params_from_text hw rd t = Ret (Right p) ->
  exists l, writable (JObj l) /\ make_classifier_params_from_json hw rd (Some (jobject l)) = Ret (Right p) /\ jobject l = JObj l.
Proof.
  unfold make_classifier_params_from_text. intros H. apply obind_ret_inv in H as ([j|] & Ep & H); [|discriminate H].
  pose proof (parse_writable t j Ep) as Hw. destruct j; try discriminate H. exists l. split; [done|].
  pose proof (jobject_sorted l (proj1 (proj1 (writable_obj l) Hw))) as ->. done.
Qed.
Lemma from_text_reg hw rd t p : make_regressor_params_from_text hw rd t = Ret (Right p) ->
  exists l, writable (JObj l) /\ make_regressor_params_from_json hw rd (Some (jobject l)) = Ret (Right p) /\ jobject l = JObj l.
Proof.
  unfold make_regressor_params_from_text. intros H. apply obind_ret_inv in H as ([j|] & Ep & H); [|discriminate H].
  pose proof (parse_writable t j Ep) as Hw. destruct j; try discriminate H. exists l. split; [done|].
  pose proof (jobject_sorted l (proj1 (proj1 (writable_obj l) Hw))) as ->. done.
Qed.
Lemma clf_made_text_made p : clf_made_text p -> clf_made p.
Proof.
  intros (hw & rd & [H|(t & H)]); exists hw, rd; [by left|]. right. apply from_text_clf in H as (l & _ & H & _). by exists l.
Qed.
Lemma reg_made_text_made p : reg_made_text p -> reg_made p.
Proof.
  intros (hw & rd & [H|(t & H)]); exists hw, rd; [by left|]. right. apply from_text_reg in H as (l & _ & H & _). by exists l.
Qed.
(** the values of a document whose strings are UTF-8 *)
Lemma collected_utf8 l p0 : sorted_obj l -> Forall fine l -> Forall (fun kv => utf8_string (fst kv) /\ writable (snd kv)) l ->
  members_to_params l ∅ = Ret (Right p0) -> utf8_params p0.
Proof.
  intros Hs Hf Hu E0 k v Ek. destruct (collected l Hs Hf) as (p & E & Hw & _ & Hp). rewrite E0 in E. injection E as <-.
  destruct (Hw k v Ek) as (t & Ht & Hv). split; [by eapply key_kind_utf8|]. specialize (Hp k).
  destruct (obj_find l k) as [w|] eqn:Ew; [|congruence]. destruct Hp as (t' & o & Ht' & Ej & Eo).
  destruct v as [| | | | |s]; try done. injection Hv as <-. rewrite Ht in Ht'. injection Ht' as <-. rewrite Ek in Eo. subst o.
  destruct w; try discriminate Ej. cbn in Ej. injection Ej as ->. apply find_split in Ew as (l1 & l2 & -> & _).
  apply Forall_app in Hu as [_ Hu]. by apply Forall_cons in Hu as [[_ Hu] _].
Qed.
Lemma fixed_utf8 p p1 : (exists n, 1 <= n <= int_max /\ p !! "n_jobs"%string = Some (PInt n)) ->
  (exists z, 0 <= z < 4294967296 /\ p !! "random_state"%string = Some (PSeed z)) ->
  (forall k v, p !! k = Some v -> k <> "n_jobs"%string -> k <> "random_state"%string -> p1 !! k = Some v) -> utf8_params p1 -> utf8_params p.
Proof.
  intros (n & _ & En) (z & _ & Ez) H Hu k v Ek.
  destruct (decide (k = "n_jobs"%string)) as [->|N1]; [rewrite En in Ek; injection Ek as <-; ud|].
  destruct (decide (k = "random_state"%string)) as [->|N2]; [rewrite Ez in Ek; injection Ek as <-; ud|]. apply Hu, H; done.
Qed.
Lemma counting_utf8 c : counting_known c -> utf8_string c.
Proof. intros [->|[->|[->| ->]]]; lit. Qed.
Lemma loss_utf8 c : loss_known c -> utf8_string c.
Proof. intros H. unfold loss_known in H. repeat (destruct H as [->|H]; [lit|]). subst. lit. Qed.
Lemma clf_made_utf8 p : clf_made_text p -> utf8_params p.
Proof.
  intros (hw & rd & [(u & Hu & E)|(t & E)]).
  - pose proof (clf_factory_created hw rd u p Hu E) as Hc.
    destruct (clf_factory_preserves hw rd u p Hu E) as (Hk & _). destruct (clf_created_fixed _ _ Hc) as [Hn Hs].
    eapply (fixed_utf8 p (clf_args_params u)); [done|done|intros k v Ek N1 N2; by rewrite <- Hk|]. apply clf_args_utf8, counting_utf8.
    destruct (cc_valid _ _ Hc) as [_ [] _]. exact cv_counting.
  - apply from_text_clf in E as (l & Hw & E & Ej). apply writable_obj in Hw as [Hsort Hw].
    rewrite jobject_members in E. rewrite jobject_members in Ej. injection Ej as Em. change (clf_doc hw rd (members l) = Ret (Right p)) in E.
    destruct (obj_cases hw rd (clf_doc hw rd) l (or_introl eq_refl)) as [[Hf _]|(k & v & _ & _ & Q)];
      [|destruct Q as [[_ Q]|[(t' & _ & _ & Q)|(t' & _ & _ & Q)]]; rewrite Q in E; discriminate E].
    destruct (clf_doc_fine hw rd _ (members_sorted l) Hf) as (p0 & E0 & _ & _ & [(_ & _ & p1 & E1 & Hc & Hk)|[_ Q]]); [|rewrite Q in E; discriminate E].
    rewrite E in E1. injection E1 as <-. destruct (clf_created_fixed _ _ Hc) as [Hn Hs].
    eapply (fixed_utf8 p (p0 ∪ default_classifier_params)); [done|done| |].
    + intros k v Ek N1 N2. rewrite Hk in Ek by done. apply lookup_union_Some_raw. destruct (p0 !! k); [by left|by right].
    + intros k v Ek. apply lookup_union_Some_raw in Ek as [Ek|[_ Ek]]; [|by apply clf_defaults_utf8].
      eapply (collected_utf8 (members l) p0 (members_sorted l) Hf); [by rewrite Em|exact E0|exact Ek].
Qed.
Lemma reg_made_utf8 p : reg_made_text p -> utf8_params p.
Proof.
  intros (hw & rd & [(u & Hu & E)|(t & E)]).
  - pose proof (reg_factory_created hw rd u p Hu E) as Hc.
    destruct (reg_factory_preserves hw rd u p Hu E) as (Hk & _). destruct (reg_created_fixed _ _ Hc) as [Hn Hs].
    eapply (fixed_utf8 p (reg_args_params u)); [done|done|intros k v Ek N1 N2; by rewrite <- Hk|].
    destruct (rc_valid _ _ Hc) as [_ [] _]. apply reg_args_utf8; [by apply counting_utf8|by apply loss_utf8].
  - apply from_text_reg in E as (l & Hw & E & Ej). apply writable_obj in Hw as [Hsort Hw].
    rewrite jobject_members in E. rewrite jobject_members in Ej. injection Ej as Em. change (reg_doc hw rd (members l) = Ret (Right p)) in E.
    destruct (obj_cases hw rd (reg_doc hw rd) l (or_intror eq_refl)) as [[Hf _]|(k & v & _ & _ & Q)];
      [|destruct Q as [[_ Q]|[(t' & _ & _ & Q)|(t' & _ & _ & Q)]]; rewrite Q in E; discriminate E].
    destruct (reg_doc_fine hw rd _ (members_sorted l) Hf) as (p0 & E0 & _ & _ & [(_ & _ & p1 & E1 & Hc & Hk)|[_ Q]]); [|rewrite Q in E; discriminate E].
    rewrite E in E1. injection E1 as <-. destruct (reg_created_fixed _ _ Hc) as [Hn Hs].
    eapply (fixed_utf8 p (p0 ∪ default_regressor_params)); [done|done| |].
    + intros k v Ek N1 N2. rewrite Hk in Ek by done. apply lookup_union_Some_raw. destruct (p0 !! k); [by left|by right].
    + intros k v Ek. apply lookup_union_Some_raw in Ek as [Ek|[_ Ek]]; [|by apply reg_defaults_utf8].
      eapply (collected_utf8 (members l) p0 (members_sorted l) Hf); [by rewrite Em|exact E0|exact Ek].
Qed.

(** ** Estimators *)
Section Est.
  Context (sh : irng -> nat -> list nat * irng) (l : bool) (fuel : nat) (b1 b2 : Z -> float32) (Hsh : shuffle_ok sh).
  Let R := mt_rnd sh l fuel b1 b2.
  Let HR : rnd_ok R irng_ok frng_ok := mt_rnd_ok sh l fuel b1 b2 Hsh.
  Context (A : algo R) (vw : aview A) (C : pol_codec (a_pol A)) (HC : tsetlini_codec R A vw C).
  Notation estS S := (est (a_pol A) (eS S) (eG R) (eF R)).

  Lemma codec_writes w N : (w = 8 \/ w = 16 \/ w = 32) -> 1 <= N <= 2 ^ (w - 1) ->
    exists I E1n E1p E2, (forall U V, laws (R := R) A irng_ok vw U V w N I E1n E1p E2) /\
      forall n nf m p ws, I n nf m p -> (0 < n)%nat -> Z.of_nat (2 * n) <= int_max -> Forall (fun w => 0 <= w < 4294967296) ws ->
        Z.of_nat nf <= int_max /\ ta_writable C (TA m ws p).
  Proof.
    intros Hw HN. destruct HC.
    - exists (cl_inv R w N), (cl_E1n R N), (cl_E1p R N), (cl_E2 R). split.
      + intros U V. by apply (classic_laws R irng_ok frng_ok HR).
      + intros n nf m p ws HI Hn Hn2 Hws. split; [|by eapply classic_writable]. eapply (classic_restored w N R n nf m ws p); done.
    - exists (bw_struct R w), (bw_E1n R N), (bw_E1p R N), (bw_E2_any R). split.
      + intros U V. by apply (bitwise_laws_struct R irng_ok frng_ok HR).
      + intros n nf m p ws HI Hn Hn2 Hws. split; [|by eapply bitwise_writable]. eapply (bitwise_restored w R n nf m ws p); done.
  Qed.
  Lemma algo_utf8 : utf8_string (pc_algo C).
  Proof. destruct HC; lit. Qed.
  Lemma ta0_writable : ta_writable C (ta0 A).
  Proof.
    destruct HC; eexists; (split; [reflexivity|]); apply writable_object; repeat apply Forall_cons_2; try apply Forall_nil_2; cbn [fst snd]; (split; [lit|]); try done.
    all: apply writable_object; repeat apply Forall_cons_2; try apply Forall_nil_2; cbn [fst snd]; (split; [lit|]); try done.
  Qed.
  Lemma est_writable kind S (e : est (a_pol A) (eS S) irng frng) : utf8_string kind -> ta_writable C (e_ta e) -> irng_ok (e_igen e) -> frng_ok (e_fgen e) ->
    storable_params (e_params e) -> utf8_params (e_params e) -> exists j, to_json C S kind e = Ret j /\ writable j.
  Proof.
    intros Hk (jt & Et & Hw) Hg Hf Hp Hu. unfold to_json. rewrite Et. cbn [obind]. eexists. split; [reflexivity|].
    apply writable_object; repeat apply Forall_cons_2; try apply Forall_nil_2; cbn [fst snd]; (split; [lit|]).
    - exact Hk.
    - exact algo_utf8.
    - exact Hw.
    - by apply irng_writable.
    - by apply frng_writable.
    - by apply params_writable.
  Qed.
  Lemma insert_utf8 p k z : utf8_string k -> utf8_params p -> utf8_params (<[k := PInt z]> p).
  Proof. intros Hk Hp. by apply map_Forall_insert_2. Qed.
  Lemma g_init_fine : irng_ok (g_init R 1).
  Proof. apply (g_init_ok R irng_ok frng_ok HR). Qed.
  Lemma f_init_fine : frng_ok (f_init R 1).
  Proof. apply (f_init_ok R irng_ok frng_ok HR). Qed.

  Theorem clf_writable S a p os rs (e : estS S) : sch_ok S ->
    clf_created a p -> storable_params p -> utf8_params p -> clf_history S A vw p os rs e ->
    exists j, clf_to_json C S e = Ret j /\ writable j.
  Proof.
    intros HS1 Hc Hst Hu Hh. pose proof (cc_valid _ _ Hc) as Ha.
    destruct (wide_enough (ca_counting a) (ca_states a)) as [H1 H2].
    { destruct Ha as [_ [] _]. done. } { destruct Ha as [[] [] _]. unfold is_int in *. lia. }
    destruct (codec_writes _ _ H1 H2) as (I & E1n & E1p & E2 & Lw & Hback).
    pose proof (clf_history_at (R := R) irng_ok frng_ok HR S HS1 A vw _ _ I E1n E1p E2 Lw a p os rs e Hc eq_refl eq_refl Hh) as At.
    destruct (clf_dims_of os rs) as [[L nf]|] eqn:Hd.
    2:{ cbn in At. subst e. apply est_writable; [lit|exact ta0_writable|exact g_init_fine|exact f_init_fine|exact Hst|exact Hu]. }
    destruct At as [(_ & Hdim & Hcore) Ep].
    destruct (clf_n_bound a L nf Ha _ Hdim) as [Hn Hn0].
    destruct (clf_opl_facts a Ha) as (Ecl & _).
    assert (Z.of_nat (2 * (L * clf_opl a)) <= int_max) as Hn2 by (pose proof (cd_n _ _ _ _ Hdim); nia).
    destruct Hcore as [Hauto Hws Hlens Hct _ Hg Hf]. cbn [fst snd] in *.
    destruct (Hback _ _ _ _ (ta_weights (e_ta e)) Hauto Hn0 Hn2) as [Hnf Hta].
    { eapply weights_words; [exact Hws|]. destruct Ha as [[] _ _]. unfold is_int in *. lia. }
    assert (Z.of_nat L <= int_max) as HL.
    { assert (L <= L * clf_opl a)%nat; [|lia]. clear -Hn0. destruct (clf_opl a); nia. }
    destruct (clf_fit_storable L nf p) as [Hst' _]; [done|done|done|]. rewrite <- Ep in Hst'.
    apply est_writable; [lit| |exact Hg|exact Hf|exact Hst'|].
    - revert Hta. clear. destruct e as [? [] ? ? ?]. exact id.
    - assert (utf8_params (clf_fit_params L nf p)) as Hq; [unfold clf_fit_params; repeat apply insert_utf8; [lit..|done]|]. rewrite <- Ep in Hq. exact Hq.
  Qed.
  Theorem reg_writable S a p os rs (e : estS S) : sch_ok S ->
    reg_created a p -> storable_params p -> utf8_params p -> reg_history S A vw p os rs e ->
    exists j, reg_to_json C S e = Ret j /\ writable j.
  Proof.
    intros HS1 Hc Hst Hu Hh. pose proof (rc_valid _ _ Hc) as Ha.
    destruct (wide_enough (ra_counting a) (ra_states a)) as [H1 H2].
    { destruct Ha as [_ [] _]. done. } { destruct Ha as [[] [] _]. unfold is_int in *. lia. }
    destruct (codec_writes _ _ H1 H2) as (I & E1n & E1p & E2 & Lw & Hback).
    pose proof (reg_history_at (R := R) irng_ok frng_ok HR S HS1 A vw _ _ I E1n E1p E2 Lw a p os rs e Hc eq_refl eq_refl Hh) as At.
    pose proof (reg_history_fgen (R := R) irng_ok frng_ok HR S A vw p os rs e Hh) as Hf.
    destruct (reg_dims_of os rs) as [nf|] eqn:Hd.
    2:{ cbn in At. subst e. apply est_writable; [lit|exact ta0_writable|exact g_init_fine|exact f_init_fine|exact Hst|exact Hu]. }
    destruct At as [(_ & Hdim & Hcore) Ep].
    destruct (reg_n_facts a Ha) as (Ecl & _ & Hn0).
    assert (Z.of_nat (2 * reg_n a) <= int_max) as Hn2 by (destruct Ha as [[] _ _]; unfold is_int in *; lia).
    destruct Hcore as [Hauto Hws Hlens Hct _ Hg]. cbn [fst snd] in *.
    destruct (Hback _ _ _ _ (ta_weights (e_ta e)) Hauto ltac:(lia) Hn2) as [Hnf Hta].
    { eapply weights_words; [exact Hws|]. destruct Ha as [[] _ _]. unfold is_int in *. lia. }
    destruct (reg_fit_storable nf p) as [Hst' _]; [done|done|]. rewrite <- Ep in Hst'.
    apply est_writable; [lit| |exact Hg|exact Hf|exact Hst'|].
    - revert Hta. clear. destruct e as [? [] ? ? ?]. exact id.
    - assert (utf8_params (reg_fit_params nf p)) as Hq; [unfold reg_fit_params; repeat apply insert_utf8; [lit..|done]|]. rewrite <- Ep in Hq. exact Hq.
  Qed.
End Est.
