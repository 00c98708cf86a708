(** * Proofs of the properties of the JSON parameter factories. *)
From Verif Require Import Base Floats FloatBase FloatFacts Params ParamFacts Reach PropFacts Json JsonFacts JsonSpec ParamSpec.
From Coq Require Import Reals Lra Permutation Sorting.Sorted.
From Flocq Require Import Core.
From stdpp Require Import list.
Local Open Scope Z_scope.

Lemma key_kind_documented k t : key_kind k = Some t <-> (k, t) ∈ documented_keys.
Proof.
  split.
  - unfold key_kind, documented_keys. rewrite !elem_of_cons.
    repeat match goal with |- context [(k =? ?s)%string] => destruct (String.eqb_spec k s) as [->|]; [cbn; intros [= <-]; tauto|] end.
    cbn. done.
  - unfold documented_keys. rewrite !elem_of_cons, elem_of_nil. intros H.
    repeat (destruct H as [[= -> ->]|H]; [reflexivity|]). destruct H.
Qed.
Lemma find_split l k v : obj_find l k = Some v <-> exists l1 l2, l = l1 ++ (k, v) :: l2 /\ k ∉ map fst l1.
Proof.
  induction l as [|[k' v'] l IH]; cbn.
  - split; [done|]. intros ([|] & l2 & H & _); discriminate H.
  - destruct (String.eqb_spec k k') as [->|Hn].
    + split.
      * intros [= ->]. exists [], l. split; [done|]. cbn. set_solver.
      * intros ([|x l1] & l2 & H & Hk); cbn in *; [by injection H as -> ->|]. injection H as <- ->. cbn in Hk. set_solver.
    + rewrite IH. split.
      * intros (l1 & l2 & -> & Hk). exists ((k', v') :: l1), l2. split; [done|]. cbn. set_solver.
      * intros ([|x l1] & l2 & H & Hk); cbn in *; [by injection H as -> ->|]. injection H as <- ->. exists l1, l2. split; [done|]. set_solver.
Qed.
Lemma last_member_value ms k v : last_member ms k v <-> last_value ms k = Some v.
Proof.
  unfold last_value. rewrite find_split. split.
  - intros (m1 & m2 & -> & H). exists (rev m2), (rev m1). rewrite rev_app_distr. cbn. rewrite <- app_assoc. split; [done|].
    intros Hc. apply H. apply elem_of_list_In. apply elem_of_list_In in Hc. rewrite map_rev in Hc. by apply in_rev.
  - intros (l1 & l2 & E & H). exists (rev l2), (rev l1).
    assert (ms = rev (l1 ++ (k, v) :: l2)) as -> by (by rewrite <- E, rev_involutive).
    rewrite rev_app_distr. cbn. rewrite <- app_assoc. split; [done|].
    intros Hc. apply H. apply elem_of_list_In. apply elem_of_list_In in Hc. rewrite map_rev in Hc. by apply in_rev.
Qed.
Lemma member_in ms k v : last_member ms k v <-> (k, v) ∈ members ms.
Proof. rewrite members_in. apply last_member_value. Qed.

(** ** conversions *)
Lemma trunc_pair_Ztrunc s m e : trunc_pair s m e = Ztrunc (val (S754_finite s m e)).
Proof.
  assert (forall m e, trunc_pair false m e = Ztrunc (val (S754_finite false m e))) as Hp.
  { intros m' e'. rewrite trunc_pair_spec. rewrite Ztrunc_floor; [done|]. unfold val. cbn. apply F2R_ge_0. cbn. lia. }
  destruct s; [|apply Hp].
  assert (val (S754_finite true m e) = - val (S754_finite false m e))%R as ->.
  { unfold val. cbn. unfold F2R. cbn. rewrite Ropp_mult_distr_l. done. }
  rewrite Ztrunc_opp, <- Hp. unfold trunc_pair. cbn. destruct (0 <=? e); lia.
Qed.
Lemma to_i32_iff x : (is_finite_sf x = true /\ is_int (Ztrunc (val x)) /\ to_i32 x = Ret (Ztrunc (val x))) \/
  (~ (is_finite_sf x = true /\ is_int (Ztrunc (val x))) /\ to_i32 x = UB FloatToInt).
Proof.
  destruct x as [s|s| |s m e]; cbn [to_i32 is_finite_sf].
  - left. unfold val. cbn. rewrite Ztrunc_IZR. done.
  - right. split; [by intros [? _]|done].
  - right. split; [by intros [? _]|done].
  - rewrite trunc_pair_Ztrunc. cbv zeta. destruct (in_i32 _) eqn:E.
    + left. split; [done|]. split; [|done]. unfold in_i32 in E. unfold is_int, int_min, int_max in *. lia.
    + right. split; [|done]. intros [_ H]. unfold in_i32 in E. unfold is_int, int_min, int_max in *. lia.
Qed.
Lemma to_u32_iff x : (is_finite_sf x = true /\ 0 <= Ztrunc (val x) < 4294967296 /\ to_u32 x = Ret (Ztrunc (val x))) \/
  (~ (is_finite_sf x = true /\ 0 <= Ztrunc (val x) < 4294967296) /\ to_u32 x = UB FloatToInt).
Proof.
  destruct x as [s|s| |s m e]; cbn [to_u32 is_finite_sf].
  - left. unfold val. cbn. rewrite Ztrunc_IZR. done.
  - right. split; [by intros [? _]|done].
  - right. split; [by intros [? _]|done].
  - rewrite trunc_pair_Ztrunc. cbv zeta. destruct (_ && _) eqn:E.
    + left. split; [done|]. split; [|done]. lia.
    + right. split; [|done]. intros [_ H]. lia.
Qed.
Inductive jv_case (t : pkind) (v : json) : Prop :=
| jv_ok o : j_value t v = Ret o -> ~ wrong_type t v -> ~ unrepresentable t v -> jv_case t v
| jv_type : j_value t v = Throw JsonTypeError -> wrong_type t v -> ~ unrepresentable t v -> jv_case t v
| jv_range : j_value t v = UB FloatToInt -> ~ wrong_type t v -> unrepresentable t v -> jv_case t v.
Lemma j_value_case t v : jv_case t v.
Proof.
  assert (forall t, (forall x, v <> JFlt x) \/ t = KindReal \/ t = KindBool \/ t = KindStr -> ~ unrepresentable t v) as Hn.
  { intros t' H ([Hi|Hi] & x & E & _); destruct H as [H|[H|[H|H]]]; congruence. }
  destruct t.
  - destruct v; try (eapply jv_ok; [reflexivity|cbn; tauto|apply Hn; left; congruence]);
      try (eapply jv_type; [reflexivity|cbn; tauto|apply Hn; left; congruence]).
    destruct (to_i32_iff x) as [(H1 & H2 & H3)|(H1 & H2)].
    + eapply jv_ok; [cbn; rewrite H3; reflexivity|cbn; tauto|]. intros (_ & x' & [= <-] & H). apply H. done.
    + eapply jv_range; [cbn; rewrite H2; reflexivity|cbn; tauto|]. split; [by left|]. exists x. split; [done|]. exact H1.
  - destruct v; try (eapply jv_ok; [reflexivity|cbn; tauto|apply Hn; left; congruence]);
      try (eapply jv_type; [reflexivity|cbn; split; [tauto|congruence]|apply Hn; left; congruence]).
    destruct (to_u32_iff x) as [(H1 & H2 & H3)|(H1 & H2)].
    + eapply jv_ok; [cbn; rewrite H3; reflexivity|cbn; tauto|]. intros (_ & x' & [= <-] & H). apply H. done.
    + eapply jv_range; [cbn; rewrite H2; reflexivity|cbn; tauto|]. split; [by right|]. exists x. split; [done|]. exact H1.
  - destruct v; try (eapply jv_ok; [reflexivity|cbn; tauto|apply Hn; tauto]);
      try (eapply jv_type; [reflexivity|cbn; tauto|apply Hn; left; congruence]).
  - destruct v; try (eapply jv_type; [reflexivity|cbn; congruence|apply Hn; tauto]).
    eapply jv_ok; [reflexivity| |apply Hn; tauto]. intros H. by eapply H.
  - destruct v; try (eapply jv_type; [reflexivity|cbn; congruence|apply Hn; tauto]).
    eapply jv_ok; [reflexivity| |apply Hn; tauto]. intros H. by eapply H.
Qed.
Lemma fine_iff k v : fine (k, v) <-> exists t, (k, t) ∈ documented_keys /\ ~ wrong_type t v /\ ~ unrepresentable t v.
Proof.
  unfold fine. cbn. split.
  - intros (t & o & H1 & H2). exists t. split; [by apply key_kind_documented|]. destruct (j_value_case t v); [done|congruence..].
  - intros (t & H1 & H2 & H3). exists t. destruct (j_value_case t v) as [o Ho| |]; [|done..]. exists o. split; [by apply key_kind_documented|done].
Qed.
Lemma denotes_value t v pv : denotes t v pv -> j_value t v = Ret (Some pv).
Proof.
  assert (forall z, is_int z -> wrap_s 32 z = z) as Hw.
  { intros z Hz. unfold wrap_s, is_int, int_min, int_max in *. cbn. rewrite Z.mod_small by lia. lia. }
  assert (forall z, 0 <= z < 4294967296 -> u32 z = z) as Hu.
  { intros z Hz. unfold u32. rewrite Z.mod_small; [done|]. exact Hz. }
  destruct 1; cbn; try done; rewrite ?Hw, ?Hu by done; done.
Qed.
Lemma correct_value k v : correct k v -> exists t o, (k, t) ∈ documented_keys /\ j_value t v = Ret o /\
  (forall pv, denotes t v pv <-> o = Some pv) /\ (o = None <-> (t = KindSeed /\ v = JNull)).
Proof.
  intros (t & Hk & [[pv H]|[-> ->]]).
  - pose proof (denotes_value _ _ _ H) as Hv. exists t, (Some pv). split; [done|]. split; [done|]. split.
    + intros q. split; [intros Hq; apply denotes_value in Hq; congruence|]. intros [= <-]. done.
    + split; [done|]. intros [-> ->]. inversion H.
  - exists KindSeed, None. split; [done|]. split; [done|]. split; [|done]. intros q. split; [|done]. intros H. inversion H.
Qed.

(** ** settings *)
Definition proper (ms : list (string * json)) : Prop := forall k v, last_member ms k v -> correct k v.
Lemma correct_fine k v : correct k v -> fine (k, v).
Proof. intros H. apply correct_value in H as (t & o & H1 & H2 & _). exists t, o. split; [by apply key_kind_documented|done]. Qed.
Lemma proper_fine ms : proper ms -> Forall fine (members ms).
Proof. intros H. apply Forall_forall. intros [k v] Hk. apply correct_fine, H. by apply member_in. Qed.
Lemma stated_iff ms p0 : proper ms -> members_to_params (members ms) ∅ = Ret (Right p0) -> forall k pv, stated ms k pv <-> p0 !! k = Some pv.
Proof.
  intros Hp E k pv. destruct (collected _ (members_sorted ms) (proper_fine _ Hp)) as (p & E' & _ & _ & Hl). rewrite E in E'. injection E' as <-.
  specialize (Hl k). unfold stated. rewrite members_find in Hl. destruct (last_value ms k) as [v|] eqn:Ev.
  - destruct Hl as (t & o & H1 & H2 & ->).
    destruct (correct_value k v) as (t' & o' & H3 & H4 & H5 & _); [by apply Hp, last_member_value|].
    apply key_kind_documented in H3. rewrite H1 in H3. injection H3 as <-. rewrite H2 in H4. injection H4 as <-. rewrite <- H5. split.
    + intros (t' & v' & K1 & K2 & K3). apply last_member_value in K2. rewrite Ev in K2. injection K2 as <-. apply key_kind_documented in K1. congruence.
    + intros Hd. exists t, v. split; [by apply key_kind_documented|]. split; [by apply last_member_value|done].
  - rewrite Hl. split; [|done]. intros (t & v & _ & K & _). apply last_member_value in K. congruence.
Qed.
Lemma setting_of ms p0 k d pv : proper ms -> members_to_params (members ms) ∅ = Ret (Right p0) ->
  pv = match p0 !! k with Some v => v | None => d end -> setting ms k d pv.
Proof.
  intros Hp E ->. unfold setting. destruct (p0 !! k) as [v|] eqn:Ek.
  - left. by apply (stated_iff ms p0).
  - right. split; [|done]. intros q Hq. apply (stated_iff ms p0 Hp E) in Hq. congruence.
Qed.
Section Settings.
  Context (ms : list (string * json)) (p0 : params) (Hp : proper ms) (E : members_to_params (members ms) ∅ = Ret (Right p0))
    (Hk : well_kinded p0).
  Ltac go k Hkk := apply (setting_of ms p0); [exact Hp|exact E|]; destruct (p0 !! k) as [v|] eqn:Ev; [|done];
    destruct (Hk k v Ev) as (t & H1 & H2); rewrite Hkk in H1; injection H1 as <-; destruct v; try discriminate H2; done.
  Lemma set_int k z : key_kind k = Some KindInt -> setting ms k (PInt z) (PInt (gi p0 k z)).
  Proof using Hp E Hk. intros Hkk. unfold gi. go k Hkk. Qed.
  Lemma set_real k z : key_kind k = Some KindReal -> setting ms k (PReal z) (PReal (gr p0 k z)).
  Proof using Hp E Hk. intros Hkk. unfold gr. go k Hkk. Qed.
  Lemma set_bool k z : key_kind k = Some KindBool -> setting ms k (PBool z) (PBool (gb p0 k z)).
  Proof using Hp E Hk. intros Hkk. unfold gb. go k Hkk. Qed.
  Lemma set_str k z : key_kind k = Some KindStr -> setting ms k (PStr z) (PStr (gs p0 k z)).
  Proof using Hp E Hk. intros Hkk. unfold gs. go k Hkk. Qed.
  Lemma set_seed : setting ms "random_state" PNone (seed_value (gseed p0)).
  Proof using Hp E Hk. unfold gseed. go "random_state"%string (eq_refl : key_kind "random_state" = Some KindSeed). Qed.
  Lemma clf_settings_of : clf_settings ms (gi p0 "boost_true_positive_feedback" 0) (clf_json_args p0).
  Proof using Hp E Hk.
    unfold clf_settings. repeat split; cbn [clf_json_args ca_clauses ca_states ca_s ca_threshold ca_weighted ca_max_weight ca_boost ca_n_jobs ca_verbose ca_counting ca_tile ca_seed];
    first [by apply set_int|by apply set_real|by apply set_bool|by apply set_str|by apply set_seed].
  Qed.
  Lemma reg_settings_of : reg_settings ms (gi p0 "boost_true_positive_feedback" 0) (reg_json_args p0).
  Proof using Hp E Hk.
    unfold reg_settings. repeat split; cbn [reg_json_args ra_clauses ra_states ra_s ra_threshold ra_weighted ra_max_weight ra_boost ra_n_jobs ra_verbose ra_counting ra_tile ra_seed ra_loss ra_C1 ra_box_muller];
    first [by apply set_int|by apply set_real|by apply set_bool|by apply set_str|by apply set_seed].
  Qed.
End Settings.

(** two sets created for the same normalised arguments agree on the keys *)
Lemma at_int_inv p k z : at_int p k = Ret z -> p !! k = Some (PInt z).
Proof. unfold at_int, p_at. destruct (p !! k) as [[]|]; cbn; try done. by intros [= ->]. Qed.
Lemma at_real_inv p k z : at_real p k = Ret z -> p !! k = Some (PReal z).
Proof. unfold at_real, p_at. destruct (p !! k) as [[]|]; cbn; try done. by intros [= ->]. Qed.
Lemma at_bool_inv p k z : at_bool p k = Ret z -> p !! k = Some (PBool z).
Proof. unfold at_bool, p_at. destruct (p !! k) as [[]|]; cbn; try done. by intros [= ->]. Qed.
Lemma at_str_inv p k z : at_str p k = Ret z -> p !! k = Some (PStr z).
Proof. unfold at_str, p_at. destruct (p !! k) as [[]|]; cbn; try done. by intros [= ->]. Qed.
Lemma at_seed_inv p k z : at_seed p k = Ret z -> p !! k = Some (PSeed z).
Proof. unfold at_seed, p_at. destruct (p !! k) as [[]|]; cbn; try done. by intros [= ->]. Qed.
Lemma clf_has_agree a p q : clf_has a p -> clf_has a q ->
  forall k, k ∈ clf_keys -> k <> "boost_true_positive_feedback"%string -> p !! k = q !! k.
Proof.
  intros [] [] k. unfold clf_keys. rewrite !elem_of_cons, elem_of_nil.
  unfold P_clauses_per_label, P_number_of_states, P_s, P_threshold, P_weighted, P_max_weight, P_n_jobs, P_verbose, P_counting_type, P_tile, P_random_state in *.
  repeat match goal with H : exists _, _ |- _ => destruct H as (? & ? & ?) end.
  repeat match goal with
  | H : at_int _ _ = Ret _ |- _ => apply at_int_inv in H | H : at_real _ _ = Ret _ |- _ => apply at_real_inv in H
  | H : at_bool _ _ = Ret _ |- _ => apply at_bool_inv in H | H : at_str _ _ = Ret _ |- _ => apply at_str_inv in H
  | H : at_seed _ _ = Ret _ |- _ => apply at_seed_inv in H end.
  intros Hk Hb. repeat (destruct Hk as [->|Hk]; [congruence|]). done.
Qed.
Lemma reg_has_agree a p q : reg_has a p -> reg_has a q ->
  forall k, k ∈ reg_keys -> k <> "boost_true_positive_feedback"%string -> p !! k = q !! k.
Proof.
  intros [] [] k. unfold reg_keys. rewrite !elem_of_cons, elem_of_nil.
  unfold P_reg_clauses, P_number_of_states, P_s, P_threshold, P_weighted, P_max_weight, P_n_jobs, P_verbose, P_counting_type, P_tile, P_random_state,
    P_loss_fn, P_loss_C1, P_box_muller in *.
  repeat match goal with H : exists _, _ |- _ => destruct H as (? & ? & ?) end.
  repeat match goal with
  | H : at_int _ _ = Ret _ |- _ => apply at_int_inv in H | H : at_real _ _ = Ret _ |- _ => apply at_real_inv in H
  | H : at_bool _ _ = Ret _ |- _ => apply at_bool_inv in H | H : at_str _ _ = Ret _ |- _ => apply at_str_inv in H
  | H : at_seed _ _ = Ret _ |- _ => apply at_seed_inv in H end.
  intros Hk Hb. repeat (destruct Hk as [->|Hk]; [congruence|]). done.
Qed.

(** ** C33 *)
Lemma clf_document hw rd ms : proper ms -> exists boost a, clf_settings ms boost a /\ clf_typed a /\
  ((clf_documented a /\ (boost = 0 \/ boost = 1) /\
    exists p p', make_classifier_params_from_json hw rd (Some (jobject ms)) = Ret (Right p) /\
      make_classifier_params_from_args hw rd a = Ret (Right p') /\ (forall k, k ∈ clf_keys -> p !! k = p' !! k) /\
      clf_created (clf_norm hw rd a) p) \/
   (~ (clf_documented a /\ (boost = 0 \/ boost = 1)) /\ make_classifier_params_from_json hw rd (Some (jobject ms)) = Ret (Left S_BAD_JSON))).
Proof.
  intros Hp. destruct (clf_doc_fine hw rd (members ms) (members_sorted ms) (proper_fine _ Hp)) as (p0 & E & Hk & Ht & Hc).
  exists (gi p0 "boost_true_positive_feedback" 0), (clf_json_args p0). rewrite jobject_members. fold (clf_doc hw rd (members ms)).
  split; [by apply clf_settings_of|]. split; [done|].
  pose proof (clf_documented_iff _ Ht) as Hd. destruct Hc as [(Ha & Hb & p & Ep & Hcr & Hl)|[Hn Ep]]; [left|right].
  - split; [by apply Hd|]. split; [done|]. destruct (clf_factory_iff hw rd _ Ht) as [(_ & p' & Ep' & Hcr')|[Hn _]]; [|done].
    exists p, p'. split; [done|]. split; [done|]. split; [|done]. intros k Hkk.
    destruct (decide (k = "boost_true_positive_feedback"%string)) as [->|Hne]; [|exact (clf_has_agree _ _ _ (cc_has _ _ Hcr) (cc_has _ _ Hcr') _ Hkk Hne)].
    destruct (clf_factory_preserves hw rd _ _ Ht Ep') as [Hl' _]. rewrite Hl' by done. rewrite Hl by done.
    assert (clf_args_params (clf_json_args p0) !! "boost_true_positive_feedback"%string = Some (PInt (if ca_boost (clf_json_args p0) then 1 else 0))) as ->.
    { unfold clf_args_params. repeat (rewrite lookup_insert_ne by done). by rewrite lookup_insert. }
    cbn [ca_boost clf_json_args]. revert Hb. unfold gi. destruct (p0 !! "boost_true_positive_feedback"%string) as [v|] eqn:Ev; [|reflexivity].
    destruct (Hk _ _ Ev) as (t & H1 & H2). change (key_kind "boost_true_positive_feedback") with (Some KindInt) in H1. injection H1 as <-.
    destruct v; try discriminate H2. intros [->| ->]; done.
  - split; [by rewrite Hd|done].
Qed.
Lemma reg_document hw rd ms : proper ms -> exists boost a, reg_settings ms boost a /\ reg_typed a /\
  ((reg_documented a /\ (boost = 0 \/ boost = 1) /\
    exists p p', make_regressor_params_from_json hw rd (Some (jobject ms)) = Ret (Right p) /\
      make_regressor_params_from_args hw rd a = Ret (Right p') /\ (forall k, k ∈ reg_keys -> p !! k = p' !! k) /\
      reg_created (reg_norm hw rd a) p) \/
   (~ (reg_documented a /\ (boost = 0 \/ boost = 1)) /\ make_regressor_params_from_json hw rd (Some (jobject ms)) = Ret (Left S_BAD_JSON))).
Proof.
  intros Hp. destruct (reg_doc_fine hw rd (members ms) (members_sorted ms) (proper_fine _ Hp)) as (p0 & E & Hk & Ht & Hc).
  exists (gi p0 "boost_true_positive_feedback" 0), (reg_json_args p0). rewrite jobject_members. fold (reg_doc hw rd (members ms)).
  split; [by apply reg_settings_of|]. split; [done|].
  pose proof (reg_documented_iff _ Ht) as Hd. destruct Hc as [(Ha & Hb & p & Ep & Hcr & Hl)|[Hn Ep]]; [left|right].
  - split; [by apply Hd|]. split; [done|]. destruct (reg_factory_iff hw rd _ Ht) as [(_ & p' & Ep' & Hcr')|[Hn _]]; [|done].
    exists p, p'. split; [done|]. split; [done|]. split; [|done]. intros k Hkk.
    destruct (decide (k = "boost_true_positive_feedback"%string)) as [->|Hne]; [|exact (reg_has_agree _ _ _ (rc_has _ _ Hcr) (rc_has _ _ Hcr') _ Hkk Hne)].
    destruct (reg_factory_preserves hw rd _ _ Ht Ep') as [Hl' _]. rewrite Hl' by done. rewrite Hl by done.
    assert (reg_args_params (reg_json_args p0) !! "boost_true_positive_feedback"%string = Some (PInt (if ra_boost (reg_json_args p0) then 1 else 0))) as ->.
    { unfold reg_args_params. repeat (rewrite lookup_insert_ne by done). by rewrite lookup_insert. }
    cbn [ra_boost reg_json_args]. revert Hb. unfold gi. destruct (p0 !! "boost_true_positive_feedback"%string) as [v|] eqn:Ev; [|reflexivity].
    destruct (Hk _ _ Ev) as (t & H1 & H2). change (key_kind "boost_true_positive_feedback") with (Some KindInt) in H1. injection H1 as <-.
    destruct v; try discriminate H2. intros [->| ->]; done.
  - split; [by rewrite Hd|done].
Qed.

(** ** documents with a problem *)
Lemma obj_cases hw rd P ms : (P = clf_doc hw rd \/ P = reg_doc hw rd) ->
  (Forall fine (members ms) /\ exists r, P (members ms) = Ret r) \/
  (exists k v, last_member ms k v /\ (forall k' v', last_member ms k' v' -> key_lt k' k -> fine (k', v')) /\
    ((~ known k /\ P (members ms) = Ret (Left S_BAD_JSON)) \/
     (exists t, (k, t) ∈ documented_keys /\ wrong_type t v /\ P (members ms) = Throw JsonTypeError) \/
     (exists t, (k, t) ∈ documented_keys /\ unrepresentable t v /\ P (members ms) = UB FloatToInt))).
Proof.
  intros HP. destruct (first_not_fine (members ms)) as [Hf|(l1 & k & v & l2 & El & Hf & Hb)].
  - left. split; [done|]. destruct HP as [-> | ->].
    + destruct (clf_doc_fine hw rd _ (members_sorted ms) Hf) as (? & _ & _ & _ & [(_ & _ & p & -> & _)|[_ ->]]); by eexists.
    + destruct (reg_doc_fine hw rd _ (members_sorted ms) Hf) as (? & _ & _ & _ & [(_ & _ & p & -> & _)|[_ ->]]); by eexists.
  - right. exists k, v. split; [apply member_in; rewrite El; set_solver|]. split.
    + intros k' v' Hm Hlt. apply member_in in Hm. rewrite El in Hm. apply elem_of_app in Hm as [Hm|Hm].
      * rewrite Forall_forall in Hf. by apply Hf.
      * exfalso. pose proof (members_sorted ms) as Hs. unfold sorted_obj in Hs. rewrite El in Hs.
        apply elem_of_cons in Hm as [[= -> ->]|Hm]; [by apply (key_lt_irrefl k)|].
        assert (StronglySorted (fun a b : string * json => key_lt a.1 b.1) ((k, v) :: l2)) as Hs2.
        { clear -Hs. induction l1 as [|x l1 IH]; [done|]. cbn in Hs. apply StronglySorted_inv in Hs as [Hs _]. by apply IH. }
        apply StronglySorted_inv in Hs2 as [_ Hs2]. rewrite Forall_forall in Hs2. specialize (Hs2 _ Hm). cbn in Hs2.
        apply (key_lt_irrefl k). by eapply key_lt_trans.
    + destruct (bad_member hw rd l1 k v l2 Hf P HP) as (B1 & B2 & B3). rewrite El. destruct Hb as [Hb|(t & Ht & Hb)].
      * left. split; [|by apply B1]. intros [t Ht]. apply key_kind_documented in Ht. congruence.
      * right. destruct (j_value_case t v) as [o Ho| |]; [by destruct (Hb o)| |].
        -- left. exists t. split; [by apply key_kind_documented|]. split; [done|]. by eapply B2.
        -- right. exists t. split; [by apply key_kind_documented|]. split; [done|]. by eapply B3.
Qed.
Lemma problem_unique ms k v k' v' : last_member ms k v -> last_member ms k' v' -> ~ fine (k, v) -> ~ fine (k', v') ->
  (forall k2 v2, last_member ms k2 v2 -> key_lt k2 k -> fine (k2, v2)) ->
  (forall k2 v2, last_member ms k2 v2 -> key_lt k2 k' -> fine (k2, v2)) -> k = k' /\ v = v'.
Proof.
  intros H1 H2 F1 F2 L1 L2. assert (k = k') as ->.
  { destruct (String.compare k k') eqn:E.
    - by apply String.compare_eq_iff.
    - by destruct F1; apply L2.
    - apply key_gt in E. by destruct F2; apply L1. }
  split; [done|]. apply last_member_value in H1. apply last_member_value in H2. congruence.
Qed.
Lemma not_fine k t v : (k, t) ∈ documented_keys -> wrong_type t v \/ unrepresentable t v -> ~ fine (k, v).
Proof.
  intros Hk H Hf. apply fine_iff in Hf as (t' & Hk' & N1 & N2). apply key_kind_documented in Hk, Hk'.
  assert (t' = t) as -> by congruence. tauto.
Qed.
Lemma unknown_not_fine k v : ~ known k -> ~ fine (k, v).
Proof. intros Hk Hf. apply fine_iff in Hf as (t & Ht & _). apply Hk. by exists t. Qed.
Lemma doc_throws_iff hw rd P ms : (P = clf_doc hw rd \/ P = reg_doc hw rd) ->
  (forall e, P (members ms) = Throw e <-> e = JsonTypeError /\ first_problem ms wrong_type) /\
  (forall u, P (members ms) = UB u <-> u = FloatToInt /\ first_problem ms unrepresentable) /\
  (first_problem ms wrong_type \/ first_problem ms unrepresentable \/ exists r, P (members ms) = Ret r).
Proof.
  intros HP.
  assert (forall Q : pkind -> json -> Prop, (forall t v, Q t v -> wrong_type t v \/ unrepresentable t v) -> first_problem ms Q -> exists k t v,
    last_member ms k v /\ (k, t) ∈ documented_keys /\ Q t v /\ ~ fine (k, v) /\ forall k2 v2, last_member ms k2 v2 -> key_lt k2 k -> fine (k2, v2)) as Hfp.
  { intros Q HQ (k & t & v & H1 & H2 & H3 & H4). exists k, t, v. split; [done|]. split; [done|]. split; [done|]. split; [eapply not_fine; eauto|].
    intros k2 v2 Hm Hl. apply fine_iff. by apply H4. }
  assert (forall (Q : pkind -> json -> Prop) k t v, last_member ms k v -> (k, t) ∈ documented_keys -> Q t v ->
    (forall k2 v2, last_member ms k2 v2 -> key_lt k2 k -> fine (k2, v2)) -> first_problem ms Q) as Hmk.
  { intros Q k t v H1 H2 H3 H4. exists k, t, v. split; [done|]. split; [done|]. split; [done|]. intros k2 v2 Hm Hl. apply fine_iff. by apply H4. }
  assert (forall Q : pkind -> json -> Prop, (forall t v, Q t v -> wrong_type t v \/ unrepresentable t v) -> first_problem ms Q -> ~ Forall fine (members ms)) as Hnf.
  { intros Q HQ (k & t & v & H1 & H2 & H3 & H4 & _)%Hfp Hall; [|done]. apply H4. rewrite Forall_forall in Hall. apply Hall. by apply member_in. }
  destruct (obj_cases hw rd P ms HP) as [[Hf [r Er]]|(k & v & Hm & Hl & Hc)].
  - split; [|split].
    + intros e. rewrite Er. split; [done|]. intros [_ H]. by apply Hnf in H; [|auto].
    + intros u. rewrite Er. split; [done|]. intros [_ H]. by apply Hnf in H; [|auto].
    + right. right. by exists r.
  - assert (~ fine (k, v)) as Fk.
    { destruct Hc as [[Hc _]|[(t & H1 & H2 & _)|(t & H1 & H2 & _)]]; [by apply unknown_not_fine|eapply not_fine; eauto|eapply not_fine; eauto]. }
    assert (forall Q : pkind -> json -> Prop, (forall t v, Q t v -> wrong_type t v \/ unrepresentable t v) -> first_problem ms Q -> exists t, (k, t) ∈ documented_keys /\ Q t v) as Hsame.
    { intros Q HQ (k' & t' & v' & H1 & H2 & H3 & H4 & H5)%Hfp; [|done].
      destruct (problem_unique ms k v k' v' Hm H1 Fk H4 Hl H5) as [-> ->]. eauto. }
    assert (forall t, wrong_type t v -> unrepresentable t v -> False) as Hex.
    { intros t. destruct (j_value_case t v); tauto. }
    assert (forall t t', (k, t) ∈ documented_keys -> (k, t') ∈ documented_keys -> t = t') as Hu.
    { intros t t' ?%key_kind_documented ?%key_kind_documented. congruence. }
    destruct Hc as [[Hc Er]|[(t & H1 & H2 & Er)|(t & H1 & H2 & Er)]]; rewrite Er; (split; [|split]).
    + intros e. split; [done|]. intros [_ H]. apply Hsame in H as (t & H & _); [|auto]. destruct Hc. by exists t.
    + intros u. split; [done|]. intros [_ H]. apply Hsame in H as (t & H & _); [|auto]. destruct Hc. by exists t.
    + right. right. by eexists.
    + intros e. split; [|by intros [-> _]]. intros [= <-]. split; [done|]. by apply (Hmk wrong_type k t v).
    + intros u. split; [done|]. intros [_ H]. apply Hsame in H as (t' & H3 & H4); [|auto]. rewrite (Hu t' t) in H4 by done. by destruct (Hex t).
    + left. by apply (Hmk wrong_type k t v).
    + intros u. split; [done|]. intros [_ H]. apply Hsame in H as (t' & H3 & H4); [|auto]. rewrite (Hu t' t) in H4 by done. by destruct (Hex t).
    + intros e. split; [|by intros [-> _]]. intros [= <-]. split; [done|]. by apply (Hmk unrepresentable k t v).
    + right. left. by apply (Hmk unrepresentable k t v).
Qed.
(** an unknown key *)
Lemma doc_unknown hw rd P ms : (P = clf_doc hw rd \/ P = reg_doc hw rd) -> (exists k v, (k, v) ∈ ms /\ ~ known k) ->
  (forall k v, last_member ms k v -> known k -> correct k v) -> P (members ms) = Ret (Left S_BAD_JSON).
Proof.
  intros HP (k & v & Hin & Hk) Hg. destruct (obj_cases hw rd P ms HP) as [[Hf _]|(k' & v' & Hm & _ & Hc)].
  - exfalso. destruct (last_value ms k) as [w|] eqn:E.
    + rewrite Forall_forall in Hf. apply (unknown_not_fine k w); [done|]. apply Hf. by apply member_in, last_member_value.
    + unfold last_value in E. apply elem_of_list_In, in_rev, elem_of_list_In in Hin. clear -E Hin. induction (rev ms) as [|[k' v'] l IH]; [set_solver|].
      cbn in E. destruct (String.eqb_spec k k') as [->|Hn]; [done|]. apply elem_of_cons in Hin as [[= -> ->]|Hin]; [done|]. by apply IH.
  - destruct Hc as [[_ E]|[(t & H1 & H2 & _)|(t & H1 & H2 & _)]]; [done|exfalso..].
    + assert (correct k' v') as Hcor%correct_fine by (apply Hg; [done|by exists t]). revert Hcor. eapply not_fine; eauto.
    + assert (correct k' v') as Hcor%correct_fine by (apply Hg; [done|by exists t]). revert Hcor. eapply not_fine; eauto.
Qed.
