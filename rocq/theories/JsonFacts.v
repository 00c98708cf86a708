(** * Facts about JSON objects and the JSON parameter factories (Json.v). *)
From Verif Require Import FloatFacts.
From Verif Require Export Json ParamFacts Reach PropFacts.
From Coq Require Import Sorting.Sorted Permutation Strings.Ascii.
From stdpp Require Import list.
Local Open Scope Z_scope.

(** ** std::map semantics of objects *)
Definition key_lt (a b : string) : Prop := String.compare a b = Lt.
Lemma ascii_lt_trans a b c : Ascii.compare a b = Lt -> Ascii.compare b c = Lt -> Ascii.compare a c = Lt.
Proof. unfold Ascii.compare. rewrite !N.compare_lt_iff. lia. Qed.
Lemma ascii_refl a : Ascii.compare a a = Eq.
Proof. unfold Ascii.compare. apply N.compare_refl. Qed.
Lemma compare_refl k : String.compare k k = Eq.
Proof. induction k as [|c k IH]; cbn; [done|]. by rewrite ascii_refl. Qed.
Lemma key_lt_trans a b c : key_lt a b -> key_lt b c -> key_lt a c.
Proof.
  unfold key_lt. revert b c. induction a as [|x a IH]; intros [|y b] [|z c]; cbn; try done.
  destruct (Ascii.compare x y) eqn:E1; try done; destruct (Ascii.compare y z) eqn:E2; try done.
  - apply compare_eq_iff in E1 as ->. apply compare_eq_iff in E2 as ->. rewrite ascii_refl. apply IH.
  - apply compare_eq_iff in E1 as ->. by rewrite E2.
  - apply compare_eq_iff in E2 as ->. by rewrite E1.
  - by rewrite (ascii_lt_trans _ _ _ E1 E2).
Qed.
Lemma key_lt_irrefl a : ~ key_lt a a.
Proof. unfold key_lt. by rewrite compare_refl. Qed.
Lemma key_gt a b : String.compare a b = Gt -> key_lt b a.
Proof. unfold key_lt. rewrite String.compare_antisym. destruct (String.compare b a); done. Qed.

Definition sorted_obj (l : list (string * json)) : Prop := StronglySorted (fun a b => key_lt a.1 b.1) l.
Lemma obj_insert_in k v l kv : kv ∈ obj_insert k v l -> kv = (k, v) \/ kv ∈ l.
Proof.
  induction l as [|[k' v'] l IH]; cbn; [rewrite elem_of_list_singleton; tauto|].
  destruct (String.compare k k') eqn:E; rewrite !elem_of_cons; [tauto|tauto|]. intros [->|H]; [tauto|]. apply IH in H. tauto.
Qed.
Lemma obj_insert_sorted k v l : sorted_obj l -> sorted_obj (obj_insert k v l).
Proof.
  induction l as [|[k' v'] l IH]; intros H; cbn.
  - repeat constructor.
  - inversion H as [|? ? Hs Hf]; subst. destruct (String.compare k k') eqn:E.
    + apply String.compare_eq_iff in E as ->. by constructor.
    + constructor; [done|]. constructor; [done|]. eapply Forall_impl; [exact Hf|]. intros [q w] Hq. cbn in *. by eapply key_lt_trans.
    + constructor; [by apply IH|]. rewrite Forall_forall. intros [q w] Hq. apply obj_insert_in in Hq as [[= -> ->]|Hq]; cbn; [by apply key_gt|].
      rewrite Forall_forall in Hf. apply (Hf (q, w) Hq).
Qed.
Lemma obj_find_insert k v l q : obj_find (obj_insert k v l) q = if (q =? k)%string then Some v else obj_find l q.
Proof.
  induction l as [|[k' v'] l IH]; cbn; [done|]. destruct (String.compare k k') eqn:E; cbn.
  - apply String.compare_eq_iff in E as ->. destruct (String.eqb_spec q k'); done.
  - done.
  - rewrite IH. destruct (String.eqb_spec q k') as [->|]; [|done]. destruct (String.eqb_spec k' k) as [->|]; [|done].
    by rewrite compare_refl in E.
Qed.
(** the members of an object given in textual order: the last value of a key counts *)
Definition last_value (ms : list (string * json)) (k : string) : option json := obj_find (rev ms) k.
Definition members (ms : list (string * json)) : list (string * json) := fold_left (fun l kv => obj_insert kv.1 kv.2 l) ms [].
Lemma jobject_members ms : jobject ms = JObj (members ms). Proof. done. Qed.
Lemma members_snoc ms k v : members (ms ++ [(k, v)]) = obj_insert k v (members ms).
Proof. unfold members. by rewrite fold_left_app. Qed.
Lemma members_sorted ms : sorted_obj (members ms).
Proof. induction ms as [|[k v] ms IH] using rev_ind; [constructor|]. rewrite members_snoc. by apply obj_insert_sorted. Qed.
Lemma members_find ms k : obj_find (members ms) k = last_value ms k.
Proof.
  unfold last_value. induction ms as [|[k' v'] ms IH] using rev_ind; [done|]. rewrite members_snoc, obj_find_insert, rev_app_distr. cbn. by rewrite IH.
Qed.
Lemma obj_find_in l k v : obj_find l k = Some v -> (k, v) ∈ l.
Proof.
  induction l as [|[k' v'] l IH]; cbn; [done|]. destruct (String.eqb_spec k k') as [->|].
  - intros [= ->]. left.
  - intros H. right. auto.
Qed.
Lemma sorted_find l k v : sorted_obj l -> (k, v) ∈ l -> obj_find l k = Some v.
Proof.
  induction l as [|[k' v'] l IH]; intros Hs H; [by apply elem_of_nil in H|]. inversion Hs as [|? ? Hs' Hf]; subst. cbn.
  apply elem_of_cons in H as [[= -> ->]|H]; [by rewrite String.eqb_refl|].
  destruct (String.eqb_spec k k') as [->|]; [|by apply IH].
  rewrite Forall_forall in Hf. specialize (Hf _ H). by apply key_lt_irrefl in Hf.
Qed.
Lemma members_in ms k v : (k, v) ∈ members ms <-> last_value ms k = Some v.
Proof.
  rewrite <- members_find. split; [apply sorted_find, members_sorted|apply obj_find_in].
Qed.
Lemma sorted_ext l1 l2 : sorted_obj l1 -> sorted_obj l2 -> (forall kv, kv ∈ l1 <-> kv ∈ l2) -> l1 = l2.
Proof.
  revert l2. induction l1 as [|a l1 IH]; intros [|b l2] H1 H2 H; [done| | |].
  - exfalso. assert (b ∈ @nil (string * json)) as Hb by (apply H; left). by apply elem_of_nil in Hb.
  - exfalso. assert (a ∈ @nil (string * json)) as Ha by (apply H; left). by apply elem_of_nil in Ha.
  - inversion H1 as [|? ? S1 F1]; inversion H2 as [|? ? S2 F2]; subst. rewrite Forall_forall in F1, F2.
    assert (a = b) as ->.
    { assert (a ∈ b :: l2) as Ha by (apply H; left). assert (b ∈ a :: l1) as Hb by (apply H; left).
      apply elem_of_cons in Ha as [->|Ha]; [done|]. apply elem_of_cons in Hb as [->|Hb]; [done|].
      exfalso. apply (key_lt_irrefl a.1). eapply key_lt_trans; [exact (F1 _ Hb)|exact (F2 _ Ha)]. }
    f_equal. apply IH; [done|done|]. intros kv. split; intros Hk.
    + assert (kv ∈ b :: l2) as Hk' by (apply H; by right). apply elem_of_cons in Hk' as [->|]; [|done].
      by destruct (key_lt_irrefl b.1 (F1 _ Hk)).
    + assert (kv ∈ b :: l1) as Hk' by (apply H; by right). apply elem_of_cons in Hk' as [->|]; [|done].
      by destruct (key_lt_irrefl b.1 (F2 _ Hk)).
Qed.
Lemma jobject_ext ms ms' : (forall k, last_value ms k = last_value ms' k) -> jobject ms = jobject ms'.
Proof.
  intros H. rewrite !jobject_members. f_equal. apply sorted_ext; [apply members_sorted|apply members_sorted|].
  intros [k v]. by rewrite !members_in, H.
Qed.
Lemma last_value_in ms k v : NoDup (map fst ms) -> (k, v) ∈ ms -> last_value ms k = Some v.
Proof.
  intros Hn H. unfold last_value. assert (NoDup (map fst (rev ms))) as Hn' by (rewrite map_rev, <- (Permutation_rev (map fst ms)); exact Hn).
  assert ((k, v) ∈ rev ms) as H' by (apply elem_of_list_In, in_rev; rewrite rev_involutive; by apply elem_of_list_In).
  clear Hn H. induction (rev ms) as [|[k' v'] l IH]; [by apply elem_of_nil in H'|]. cbn in *. apply NoDup_cons in Hn' as [Hk Hn].
  apply elem_of_cons in H' as [[= -> ->]|H]; [by rewrite String.eqb_refl|].
  destruct (String.eqb_spec k k') as [->|]; [|by apply IH]. exfalso. apply Hk. apply (elem_of_list_fmap_1 fst _ (k', v)). exact H.
Qed.
Lemma last_value_mem ms k v : last_value ms k = Some v -> (k, v) ∈ ms.
Proof. intros H. apply obj_find_in in H. apply elem_of_list_In, in_rev. by apply elem_of_list_In. Qed.
(** with distinct keys the textual order is irrelevant *)
Lemma jobject_perm ms ms' : NoDup (map fst ms) -> Permutation ms ms' -> jobject ms = jobject ms'.
Proof.
  intros Hn Hp. assert (NoDup (map fst ms')) as Hn' by (rewrite <- Hp; exact Hn).
  apply jobject_ext. intros k. destruct (last_value ms k) as [v|] eqn:E.
  - apply last_value_mem in E. symmetry. apply last_value_in; [done|]. by rewrite <- Hp.
  - destruct (last_value ms' k) as [v|] eqn:E'; [|done]. apply last_value_mem in E'. rewrite <- Hp in E'. apply (last_value_in _ _ _ Hn) in E'. congruence.
Qed.

(** ** json_to_params *)
Definition fine (kv : string * json) : Prop := exists t o, key_kind kv.1 = Some t /\ j_value t kv.2 = Ret o.
Lemma to_params_app l1 l2 rv : Forall fine l1 -> exists rv', members_to_params (l1 ++ l2) rv = members_to_params l2 rv' /\
  members_to_params l1 rv = Ret (Right rv').
Proof.
  revert rv. induction l1 as [|[k v] l1 IH]; intros rv H; [by exists rv|]. inversion H as [|? ? (t & o & Ek & Ev) Hf]; subst. cbn in *.
  rewrite Ek, Ev. cbn [obind]. apply IH. done.
Qed.
Lemma first_not_fine (l : list (string * json)) : Forall fine l \/ exists l1 k v l2, l = l1 ++ (k, v) :: l2 /\ Forall fine l1 /\
  (key_kind k = None \/ exists t, key_kind k = Some t /\ (forall o, j_value t v <> Ret o)).
Proof.
  induction l as [|[k v] l IH]; [by left|].
  destruct (key_kind k) as [t|] eqn:Ek.
  - destruct (j_value t v) as [o| | |] eqn:Ev.
    + destruct IH as [H|(l1 & k' & v' & l2 & -> & Hf & H)].
      * left. constructor; [by exists t, o|done].
      * right. exists ((k, v) :: l1), k', v', l2. split; [done|]. split; [constructor; [by exists t, o|done]|done].
    + right. exists [], k, v, l. split; [done|]. split; [done|]. right. exists t. split; [done|]. by rewrite Ev.
    + right. exists [], k, v, l. split; [done|]. split; [done|]. right. exists t. split; [done|]. by rewrite Ev.
    + right. exists [], k, v, l. split; [done|]. split; [done|]. right. exists t. split; [done|]. by rewrite Ev.
  - right. exists [], k, v, l. split; [done|]. split; [done|]. by left.
Qed.
Lemma to_params_fine l rv : sorted_obj l -> Forall fine l -> exists p, members_to_params l rv = Ret (Right p) /\
  forall k, match obj_find l k with
            | Some v => exists t o, key_kind k = Some t /\ j_value t v = Ret o /\ p !! k = match o with Some pv => Some pv | None => rv !! k end
            | None => p !! k = rv !! k
            end.
Proof.
  revert rv. induction l as [|[k v] l IH]; intros rv Hs H; [by exists rv|]. inversion H as [|? ? (t & o & Ek & Ev) Hf]; subst. cbn in Ek, Ev.
  inversion Hs as [|? ? Hs' Hlt]; subst. cbn [members_to_params]. rewrite Ek, Ev. cbn [obind].
  destruct (IH (match o with Some pv => <[k := pv]> rv | None => rv end) Hs' Hf) as (p & Ep & Hp). exists p. split; [done|].
  intros q. specialize (Hp q). cbn [obj_find]. destruct (String.eqb_spec q k) as [->|Hq].
  - exists t, o. split; [done|]. split; [done|].
    destruct (obj_find l k) as [w|] eqn:F.
    + apply obj_find_in in F. rewrite Forall_forall in Hlt. specialize (Hlt _ F). by apply key_lt_irrefl in Hlt.
    + rewrite Hp. destruct o; [by rewrite lookup_insert|done].
  - assert ((match o with Some pv => <[k := pv]> rv | None => rv end) !! q = rv !! q) as Eq.
    { destruct o; [by rewrite lookup_insert_ne|done]. }
    rewrite Eq in Hp. exact Hp.
Qed.
(** conversions only end in a value, a type error or an unrepresentable number *)
Lemma j_value_cases t v : (exists o, j_value t v = Ret o) \/ j_value t v = Throw JsonTypeError \/ j_value t v = UB FloatToInt.
Proof.
  destruct t, v as [|b|z|z|x|s|l|l]; cbn; eauto; destruct x as [s|s| |s m e]; cbn; eauto; destruct (_ : bool); cbn; eauto.
Qed.
Definition clf_doc hw rd l := make_classifier_params_from_json hw rd (Some (JObj l)).
Definition reg_doc hw rd l := make_regressor_params_from_json hw rd (Some (JObj l)).
Lemma clf_doc_unfold hw rd l : clf_doc hw rd l =
  (let* e := members_to_params l ∅ in let* x := right_map e (fun p => Ret (merge_params default_classifier_params p)) in classifier_pipeline hw rd x).
Proof. done. Qed.
Lemma reg_doc_unfold hw rd l : reg_doc hw rd l =
  (let* e := members_to_params l ∅ in let* x := right_map e (fun p => Ret (merge_params default_regressor_params p)) in regressor_pipeline hw rd x).
Proof. done. Qed.
Lemma bad_member hw rd l1 k v l2 : Forall fine l1 -> forall P, (P = clf_doc hw rd \/ P = reg_doc hw rd) ->
  (key_kind k = None -> P (l1 ++ (k, v) :: l2) = Ret (Left S_BAD_JSON)) /\
  (forall t, key_kind k = Some t -> j_value t v = Throw JsonTypeError -> P (l1 ++ (k, v) :: l2) = Throw JsonTypeError) /\
  (forall t, key_kind k = Some t -> j_value t v = UB FloatToInt -> P (l1 ++ (k, v) :: l2) = UB FloatToInt).
Proof.
  intros Hf P HP. destruct (to_params_app l1 ((k, v) :: l2) ∅ Hf) as (rv & E & _).
  destruct HP as [-> | ->]; (split; [|split]).
  all: intros; rewrite ?clf_doc_unfold, ?reg_doc_unfold, E; cbn [members_to_params];
    repeat match goal with H : key_kind _ = _ |- _ => rewrite H; clear H | H : j_value _ _ = _ |- _ => rewrite H; clear H end; done.
Qed.

(** the collected values have the kind of their key *)
Definition kind_of (v : pvalue) : option pkind :=
  match v with PInt _ => Some KindInt | PSeed _ => Some KindSeed | PReal _ => Some KindReal | PBool _ => Some KindBool | PStr _ => Some KindStr | PNone => None end.
Lemma j_value_kind t v pv : j_value t v = Ret (Some pv) -> kind_of pv = Some t.
Proof.
  destruct t; cbn.
  - destruct (j_int v); cbn; by intros [= <-].
  - destruct v; try done; match goal with |- context [j_u32 ?x] => destruct (j_u32 x) | _ => idtac end; cbn; by intros [= <-].
  - destruct (j_f32 v); cbn; by intros [= <-].
  - destruct (j_bool v); cbn; by intros [= <-].
  - destruct (j_str v); cbn; by intros [= <-].
Qed.
Definition well_kinded (p : params) : Prop := forall k v, p !! k = Some v -> exists t, key_kind k = Some t /\ kind_of v = Some t.
Lemma collected_kinds l : sorted_obj l -> Forall fine l -> exists p, members_to_params l ∅ = Ret (Right p) /\ well_kinded p /\
  forall k, match obj_find l k with
            | Some v => exists t o, key_kind k = Some t /\ j_value t v = Ret o /\ p !! k = o
            | None => p !! k = None
            end.
Proof.
  intros Hs Hf. destruct (to_params_fine l ∅ Hs Hf) as (p & Ep & Hp). exists p. split; [done|].
  assert (forall k, match obj_find l k with
            | Some v => exists t o, key_kind k = Some t /\ j_value t v = Ret o /\ p !! k = o
            | None => p !! k = None
            end) as H.
  { intros k. specialize (Hp k). destruct (obj_find l k) as [v|]; [|by rewrite Hp].
    destruct Hp as (t & o & H1 & H2 & H3). exists t, o. split; [done|]. split; [done|]. rewrite H3. by destruct o. }
  split; [|done]. intros k v E. specialize (H k). destruct (obj_find l k) as [w|]; [|congruence].
  destruct H as (t & o & H1 & H2 & H3). exists t. split; [done|]. eapply j_value_kind. rewrite H2. congruence.
Qed.

(** ** The arguments a document stands for *)
Definition gi (p : params) (k : string) (d : Z) : Z := match p !! k with Some (PInt z) => z | _ => d end.
Definition gb (p : params) (k : string) (d : bool) : bool := match p !! k with Some (PBool b) => b | _ => d end.
Definition gr (p : params) (k : string) (d : float32) : float32 := match p !! k with Some (PReal x) => x | _ => d end.
Definition gs (p : params) (k : string) (d : string) : string := match p !! k with Some (PStr s) => s | _ => d end.
Definition gseed (p : params) : option Z := match p !! "random_state"%string with Some (PSeed z) => Some z | _ => None end.
Definition clf_json_args (p : params) : clf_args :=
  ClfArgs (gi p "number_of_clauses_per_label" 12) (gi p "number_of_states" 100) (gr p "s" (f32_of_Z 2)) (gi p "threshold" 15)
    (gb p "weighted" false) (gi p "max_weight" int_max) (negb (gi p "boost_true_positive_feedback" 0 =? 0)) (gi p "n_jobs" (-1))
    (gb p "verbose" false) (gs p "counting_type" "auto") (gi p "clause_output_tile_size" 16) (gseed p).
Definition reg_json_args (p : params) : reg_args :=
  RegArgs (gi p "number_of_regressor_clauses" 20) (gi p "number_of_states" 100) (gr p "s" (f32_of_Z 2)) (gi p "threshold" 15)
    (gb p "weighted" true) (gi p "max_weight" int_max) (negb (gi p "boost_true_positive_feedback" 0 =? 0)) (gi p "n_jobs" (-1))
    (gb p "verbose" false) (gs p "counting_type" "auto") (gi p "clause_output_tile_size" 16) (gs p "loss_fn" "MSE")
    (gr p "loss_fn_C1" (S754_zero false)) (gb p "box_muller" false) (gseed p).
Section Merged.
  Context (p D : params) (Hk : well_kinded p).
  Lemma merged_at k : p_at (merge_params D p) k = match p !! k with Some v => Ret v | None => p_at D k end.
  Proof.
    unfold p_at, merge_params. destruct (p !! k) as [v|] eqn:E; [by rewrite (lookup_union_Some_l _ _ _ _ E)|].
    by rewrite lookup_union_r.
  Qed.
  Ltac kinded k E := destruct (p !! k) as [v|] eqn:E; [destruct (Hk k v E) as (t & H1 & H2)|].
  Lemma merged_int k d : key_kind k = Some KindInt -> p_at D k = Ret (PInt d) -> at_int (merge_params D p) k = Ret (gi p k d).
  Proof using Hk.
    intros Hkk Hd. unfold at_int, gi. rewrite merged_at. kinded k E; [|by rewrite Hd]. destruct v; cbn in *; congruence.
  Qed.
  Lemma merged_real k d : key_kind k = Some KindReal -> p_at D k = Ret (PReal d) -> at_real (merge_params D p) k = Ret (gr p k d).
  Proof using Hk.
    intros Hkk Hd. unfold at_real, gr. rewrite merged_at. kinded k E; [|by rewrite Hd]. destruct v; cbn in *; congruence.
  Qed.
  Lemma merged_bool k d : key_kind k = Some KindBool -> p_at D k = Ret (PBool d) -> at_bool (merge_params D p) k = Ret (gb p k d).
  Proof using Hk.
    intros Hkk Hd. unfold at_bool, gb. rewrite merged_at. kinded k E; [|by rewrite Hd]. destruct v; cbn in *; congruence.
  Qed.
  Lemma merged_str k d : key_kind k = Some KindStr -> p_at D k = Ret (PStr d) -> at_str (merge_params D p) k = Ret (gs p k d).
  Proof using Hk.
    intros Hkk Hd. unfold at_str, gs. rewrite merged_at. kinded k E; [|by rewrite Hd]. destruct v; cbn in *; congruence.
  Qed.
  Lemma merged_seed : p_at D "random_state" = Ret PNone ->
    p_at (merge_params D p) "random_state" = Ret (match gseed p with Some z => PSeed z | None => PNone end).
  Proof using Hk.
    intros Hd. unfold gseed. rewrite merged_at. kinded "random_state"%string E; [|by rewrite Hd].
    assert (t = KindSeed) as -> by (change (key_kind "random_state") with (Some KindSeed) in H1; congruence).
    destruct v; cbn in *; congruence.
  Qed.
End Merged.
Lemma clf_json_raw p : well_kinded p ->
  clf_raw (clf_json_args p) (gi p "boost_true_positive_feedback" 0) (merge_params default_classifier_params p).
Proof. intros Hk. constructor; first [by apply merged_int|by apply merged_real|by apply merged_bool|by apply merged_str|by apply merged_seed]. Qed.
Lemma reg_json_raw p : well_kinded p ->
  reg_raw (reg_json_args p) (gi p "boost_true_positive_feedback" 0) (merge_params default_regressor_params p).
Proof. intros Hk. constructor; first [by apply merged_int|by apply merged_real|by apply merged_bool|by apply merged_str|by apply merged_seed]. Qed.

(** *** converted values are values of their C++ types *)
Lemma normalize_valid m e sz : SpecFloat.valid_binary 24 128 (SpecFloat.binary_normalize 24 128 m e sz) = true.
Proof. rewrite (FloatBase.normalize_equiv 24 128 eq_refl eq_refl). apply BinarySingleNaN.valid_binary_B2SF. Qed.
Lemma j_f32_valid j x : j_f32 j = Ret x -> SpecFloat.valid_binary 24 128 x = true.
Proof.
  destruct j as [|b|z|z|y|s|l|l]; cbn; try done; intros [= <-]; try apply normalize_valid.
  destruct y; try done. apply normalize_valid.
Qed.
Lemma j_int_range j z : j_int j = Ret z -> is_int z.
Proof.
  destruct j as [|b|i|i|y|s|l|l]; cbn; try done.
  - intros [= <-]. destruct b; cbn; unfold is_int, int_min, int_max; lia.
  - intros [= <-]. unfold wrap_s, is_int, int_min, int_max. pose proof (Z.mod_pos_bound (i + 2 ^ (32 - 1)) (2 ^ 32) ltac:(lia)). lia.
  - intros [= <-]. unfold wrap_s, is_int, int_min, int_max. pose proof (Z.mod_pos_bound (i + 2 ^ (32 - 1)) (2 ^ 32) ltac:(lia)). lia.
  - destruct y as [?|?| |s m e]; cbn; try done; [intros [= <-]; unfold is_int, int_min, int_max; lia|].
    destruct (in_i32 _) eqn:E; [|done]. intros [= <-]. unfold in_i32 in E. apply andb_true_iff in E as [E1 E2]. unfold is_int. lia.
Qed.
Lemma j_u32_range j z : j_u32 j = Ret z -> 0 <= z < 4294967296.
Proof.
  destruct j as [|b|i|i|y|s|l|l]; cbn; try done.
  - intros [= <-]. destruct b; cbn; lia.
  - intros [= <-]. unfold u32. apply Z.mod_pos_bound. lia.
  - intros [= <-]. unfold u32. apply Z.mod_pos_bound. lia.
  - destruct y as [?|?| |s m e]; cbn; try done; [intros [= <-]; lia|].
    destruct (_ && _) eqn:E; [|done]. intros [= <-]. apply andb_true_iff in E as [E1 E2]. lia.
Qed.
(** every collected value is in the range of its type *)
Definition in_range (v : pvalue) : Prop :=
  match v with
  | PInt z => is_int z | PSeed z => 0 <= z < 4294967296 | PReal x => SpecFloat.valid_binary 24 128 x = true | _ => True
  end.
Lemma j_value_range t v pv : j_value t v = Ret (Some pv) -> in_range pv.
Proof.
  destruct t; cbn.
  - destruct (j_int v) eqn:E; cbn; try done. intros [= <-]. cbn. by eapply j_int_range.
  - assert (forall u, (let* z := j_u32 u in Ret (Some (PSeed z))) = Ret (Some pv) -> in_range pv) as H.
    { intros u. destruct (j_u32 u) eqn:E; cbn; try done. intros [= <-]. cbn. by eapply j_u32_range. }
    destruct v; try apply H. done.
  - destruct (j_f32 v) eqn:E; cbn; try done. intros [= <-]. cbn. by eapply j_f32_valid.
  - destruct (j_bool v); cbn; try done. by intros [= <-].
  - destruct (j_str v); cbn; try done. by intros [= <-].
Qed.
Lemma collected l : sorted_obj l -> Forall fine l -> exists p, members_to_params l ∅ = Ret (Right p) /\ well_kinded p /\
  (forall k v, p !! k = Some v -> in_range v) /\
  forall k, match obj_find l k with
            | Some v => exists t o, key_kind k = Some t /\ j_value t v = Ret o /\ p !! k = o
            | None => p !! k = None
            end.
Proof.
  intros Hs Hf. destruct (collected_kinds l Hs Hf) as (p & Ep & Hk & Hp). exists p. split; [done|]. split; [done|]. split; [|done].
  intros k v E. specialize (Hp k). destruct (obj_find l k) as [w|]; [|congruence]. destruct Hp as (t & o & _ & H2 & H3).
  eapply j_value_range. rewrite H2. congruence.
Qed.
Section Typed.
  Context (p : params) (Hr : forall k v, p !! k = Some v -> in_range v).
  Lemma gi_typed k d : is_int d -> is_int (gi p k d).
  Proof using Hr. intros Hd. unfold gi. destruct (p !! k) as [[]|] eqn:E; try done. exact (Hr _ _ E). Qed.
  Lemma gr_typed k d : SpecFloat.valid_binary 24 128 d = true -> SpecFloat.valid_binary 24 128 (gr p k d) = true.
  Proof using Hr. intros Hd. unfold gr. destruct (p !! k) as [[]|] eqn:E; try done. exact (Hr _ _ E). Qed.
  Lemma gseed_typed : seed_typed (gseed p).
  Proof using Hr. unfold gseed. destruct (p !! _) as [[]|] eqn:E; try done. exact (Hr _ _ E). Qed.
  Lemma clf_json_typed : clf_typed (clf_json_args p).
  Proof using Hr. constructor; cbn; first [apply gi_typed; done|apply gr_typed; done|apply gseed_typed]. Qed.
  Lemma reg_json_typed : reg_typed (reg_json_args p).
  Proof using Hr. constructor; cbn; first [apply gi_typed; done|apply gr_typed; done|apply gseed_typed]. Qed.
End Typed.
(** what a factory makes of a document whose members are all fine *)
Lemma clf_doc_fine hw rd l : sorted_obj l -> Forall fine l -> exists p0, members_to_params l ∅ = Ret (Right p0) /\ well_kinded p0 /\
  let a := clf_json_args p0 in let b := gi p0 "boost_true_positive_feedback" 0 in clf_typed a /\
  ((clf_acceptable a /\ (b = 0 \/ b = 1) /\ exists p, clf_doc hw rd l = Ret (Right p) /\ clf_created (clf_norm hw rd a) p /\
      forall k, k <> "n_jobs"%string -> k <> "random_state"%string -> p !! k = match p0 !! k with Some v => Some v | None => default_classifier_params !! k end) \/
   (~ (clf_acceptable a /\ (b = 0 \/ b = 1)) /\ clf_doc hw rd l = Ret (Left S_BAD_JSON))).
Proof.
  intros Hs Hf. destruct (collected l Hs Hf) as (p0 & Ep & Hk & Hr & Hp). exists p0. split; [done|]. split; [done|]. intros a b.
  pose proof (clf_json_typed p0 Hr) as Ht. split; [exact Ht|]. pose proof (clf_json_raw p0 Hk) as Hraw.
  rewrite clf_doc_unfold, Ep. cbn [obind right_map]. rewrite (clf_pipeline_spec hw rd _ _ _ Hraw). fold a b in Hraw |- *.
  destruct (clf_accept_b a b) eqn:Ea.
  - left. apply clf_accept_iff in Ea as [Ha Hb]. split; [done|]. split; [done|]. eexists. split; [reflexivity|].
    assert (forall k, k <> "n_jobs"%string -> k <> "random_state"%string ->
      norm_params hw rd (ca_n_jobs a) (ca_seed a) (merge_params default_classifier_params p0) !! k =
      match p0 !! k with Some v => Some v | None => default_classifier_params !! k end) as Hlook.
    { intros k K1 K2. rewrite norm_params_lookup by done. unfold merge_params. destruct (p0 !! k) as [v|] eqn:E.
      - exact (lookup_union_Some_l _ _ _ _ E).
      - exact (lookup_union_r _ _ _ E). }
    split; [|exact Hlook]. constructor.
    + by apply clf_norm_valid.
    + eapply clf_norm_has; [exact Hraw|done].
    + intros z. unfold P_number_of_labels, at_int, p_at. rewrite Hlook by done.
      destruct (p0 !! "number_of_labels"%string) as [v|] eqn:E; [destruct (Hk _ _ E) as (t & H1 & _); discriminate H1|]. intros HH. vm_compute in HH. discriminate HH.
  - right. split; [|done]. intros Hc. apply clf_accept_iff in Hc. congruence.
Qed.
Lemma reg_doc_fine hw rd l : sorted_obj l -> Forall fine l -> exists p0, members_to_params l ∅ = Ret (Right p0) /\ well_kinded p0 /\
  let a := reg_json_args p0 in let b := gi p0 "boost_true_positive_feedback" 0 in reg_typed a /\
  ((reg_acceptable a /\ (b = 0 \/ b = 1) /\ exists p, reg_doc hw rd l = Ret (Right p) /\ reg_created (reg_norm hw rd a) p /\
      forall k, k <> "n_jobs"%string -> k <> "random_state"%string -> p !! k = match p0 !! k with Some v => Some v | None => default_regressor_params !! k end) \/
   (~ (reg_acceptable a /\ (b = 0 \/ b = 1)) /\ reg_doc hw rd l = Ret (Left S_BAD_JSON))).
Proof.
  intros Hs Hf. destruct (collected l Hs Hf) as (p0 & Ep & Hk & Hr & Hp). exists p0. split; [done|]. split; [done|]. intros a b.
  pose proof (reg_json_typed p0 Hr) as Ht. split; [exact Ht|]. pose proof (reg_json_raw p0 Hk) as Hraw.
  rewrite reg_doc_unfold, Ep. cbn [obind right_map]. rewrite (reg_pipeline_spec hw rd _ _ _ Hraw). fold a b in Hraw |- *.
  destruct (reg_accept_b a b) eqn:Ea.
  - left. apply reg_accept_iff in Ea as [Ha Hb]. split; [done|]. split; [done|]. eexists. split; [reflexivity|].
    split; [constructor; [by apply reg_norm_valid|eapply reg_norm_has; [exact Hraw|done]]|].
    intros k K1 K2. rewrite norm_params_lookup by done. unfold merge_params. destruct (p0 !! k) as [v|] eqn:E.
    + exact (lookup_union_Some_l _ _ _ _ E).
    + exact (lookup_union_r _ _ _ E).
  - right. split; [|done]. intros Hc. apply reg_accept_iff in Hc. congruence.
Qed.
