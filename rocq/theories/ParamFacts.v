(** * Facts about parameters: what the accessors read, what the factories accept. *)
From Verif Require Export Params Wp.
Local Open Scope Z_scope.

Definition is_int (z : Z) : Prop := int_min <= z <= int_max.

(** specificity accepted by the factories: finite and not below one (see FloatFacts.s_valid_iff for the real-number reading) *)
Definition s_valid (s : float32) : bool := is_finite_sf s && negb (f_lt (f64_of_f32 s) (f64_of_Z 1)).
Definition counting_known (c : string) : Prop := c = "auto"%string \/ c = "int8"%string \/ c = "int16"%string \/ c = "int32"%string.
Definition tile_known (t : Z) : Prop := t = 16 \/ t = 32 \/ t = 64 \/ t = 128.
Definition loss_known (l : string) : Prop :=
  l = "L2"%string \/ l = "MSE"%string \/ l = "MAE"%string \/ l = "L1"%string \/ l = "berHu"%string \/ l = "L1+2"%string.

(** the arguments are values of their C++ types: int, unsigned int *)
Definition seed_typed (s : option Z) : Prop := match s with Some s => 0 <= s < 4294967296 | None => True end.
Record clf_typed (a : clf_args) : Prop := {
  ct_clauses : is_int (ca_clauses a); ct_states : is_int (ca_states a); ct_threshold : is_int (ca_threshold a);
  ct_maxw : is_int (ca_max_weight a); ct_njobs : is_int (ca_n_jobs a); ct_tile : is_int (ca_tile a);
  ct_seed : seed_typed (ca_seed a); ct_real : valid_binary 24 128 (ca_s a) = true }.
Record reg_typed (a : reg_args) : Prop := {
  rt_clauses : is_int (ra_clauses a); rt_states : is_int (ra_states a); rt_threshold : is_int (ra_threshold a);
  rt_maxw : is_int (ra_max_weight a); rt_njobs : is_int (ra_n_jobs a); rt_tile : is_int (ra_tile a);
  rt_seed : seed_typed (ra_seed a); rt_real : valid_binary 24 128 (ra_s a) = true;
  rt_C1 : valid_binary 24 128 (ra_C1 a) = true }.

(** the documented constraints on arguments *)
Record clf_acceptable (a : clf_args) : Prop := {
  cv_njobs : ca_n_jobs a = -1 \/ 1 <= ca_n_jobs a;
  cv_states : 1 <= ca_states a;
  cv_s : s_valid (ca_s a) = true;
  cv_clauses : 1 <= ca_clauses a /\ ca_clauses a mod 4 = 0;
  cv_threshold : 1 <= ca_threshold a;
  cv_maxw : 1 <= ca_max_weight a;
  cv_counting : counting_known (ca_counting a);
  cv_tile : tile_known (ca_tile a) }.
Record reg_acceptable (a : reg_args) : Prop := {
  rv_njobs : ra_n_jobs a = -1 \/ 1 <= ra_n_jobs a;
  rv_states : 1 <= ra_states a;
  rv_s : s_valid (ra_s a) = true;
  rv_clauses : 1 <= ra_clauses a /\ ra_clauses a mod 2 = 0;
  rv_threshold : 1 <= ra_threshold a;
  rv_maxw : 1 <= ra_max_weight a;
  rv_counting : counting_known (ra_counting a);
  rv_loss : loss_known (ra_loss a);
  rv_tile : tile_known (ra_tile a) }.

(** normalisation: -1 jobs means all hardware threads (at least one), an absent seed is drawn from the system *)
Definition norm_jobs (hw n : Z) : Z := if n =? -1 then Z.max 1 (wrap_s 32 hw) else n.
Definition norm_seed (rd : Z) (s : option Z) : option Z := match s with Some s => Some s | None => Some (u32 rd) end.
Definition clf_norm (hw rd : Z) (a : clf_args) : clf_args :=
  ClfArgs (ca_clauses a) (ca_states a) (ca_s a) (ca_threshold a) (ca_weighted a) (ca_max_weight a) (ca_boost a)
    (norm_jobs hw (ca_n_jobs a)) (ca_verbose a) (ca_counting a) (ca_tile a) (norm_seed rd (ca_seed a)).
Definition reg_norm (hw rd : Z) (a : reg_args) : reg_args :=
  RegArgs (ra_clauses a) (ra_states a) (ra_s a) (ra_threshold a) (ra_weighted a) (ra_max_weight a) (ra_boost a)
    (norm_jobs hw (ra_n_jobs a)) (ra_verbose a) (ra_counting a) (ra_tile a) (ra_loss a) (ra_C1 a) (ra_box_muller a)
    (norm_seed rd (ra_seed a)).

(** what the accessors read from a parameter set *)
Record clf_has (a : clf_args) (p : params) : Prop := {
  ch_clauses : P_clauses_per_label p = Ret (ca_clauses a);
  ch_states : P_number_of_states p = Ret (ca_states a);
  ch_s : P_s p = Ret (ca_s a);
  ch_threshold : P_threshold p = Ret (ca_threshold a);
  ch_weighted : P_weighted p = Ret (ca_weighted a);
  ch_maxw : P_max_weight p = Ret (ca_max_weight a);
  ch_boost : P_boost p = Ret (ca_boost a);
  ch_njobs : P_n_jobs p = Ret (ca_n_jobs a);
  ch_verbose : P_verbose p = Ret (ca_verbose a);
  ch_counting : P_counting_type p = Ret (ca_counting a);
  ch_tile : P_tile p = Ret (ca_tile a);
  ch_seed : exists z, ca_seed a = Some z /\ P_random_state p = Ret z }.
Record reg_has (a : reg_args) (p : params) : Prop := {
  rh_clauses : P_reg_clauses p = Ret (ra_clauses a);
  rh_states : P_number_of_states p = Ret (ra_states a);
  rh_s : P_s p = Ret (ra_s a);
  rh_threshold : P_threshold p = Ret (ra_threshold a);
  rh_weighted : P_weighted p = Ret (ra_weighted a);
  rh_maxw : P_max_weight p = Ret (ra_max_weight a);
  rh_boost : P_boost p = Ret (ra_boost a);
  rh_njobs : P_n_jobs p = Ret (ra_n_jobs a);
  rh_verbose : P_verbose p = Ret (ra_verbose a);
  rh_counting : P_counting_type p = Ret (ra_counting a);
  rh_tile : P_tile p = Ret (ra_tile a);
  rh_loss : P_loss_fn p = Ret (ra_loss a);
  rh_C1 : P_loss_C1 p = Ret (ra_C1 a);
  rh_box : P_box_muller p = Ret (ra_box_muller a);
  rh_seed : exists z, ra_seed a = Some z /\ P_random_state p = Ret z }.

(** insertion of an unrelated key *)
Ltac pkey := unfold P_clauses_per_label, P_number_of_states, P_s, P_threshold, P_weighted, P_max_weight, P_boost,
  P_n_jobs, P_verbose, P_counting_type, P_tile, P_random_state, P_reg_clauses, P_loss_fn, P_loss_C1, P_box_muller,
  P_number_of_labels, P_number_of_features, at_int, at_str, at_bool, at_real, at_seed, p_at in *.
Lemma clf_has_insert a p k v : clf_has a p -> k = "number_of_labels"%string \/ k = "number_of_features"%string ->
  clf_has a (<[k := v]> p).
Proof.
  intros [] Hk. constructor; pkey; (destruct Hk as [-> | ->]; rewrite lookup_insert_ne by done); done.
Qed.
Lemma reg_has_insert a p k v : reg_has a p -> k = "number_of_labels"%string \/ k = "number_of_features"%string ->
  reg_has a (<[k := v]> p).
Proof.
  intros [] Hk. constructor; pkey; (destruct Hk as [-> | ->]; rewrite lookup_insert_ne by done); done.
Qed.
Lemma P_labels_insert p z : P_number_of_labels (<["number_of_labels" := PInt z]> p) = Ret z.
Proof. pkey. by rewrite lookup_insert. Qed.
Lemma P_features_insert p z : P_number_of_features (<["number_of_features" := PInt z]> p) = Ret z.
Proof. pkey. by rewrite lookup_insert. Qed.
Lemma P_labels_insert_ne p v : P_number_of_labels (<["number_of_features" := v]> p) = P_number_of_labels p.
Proof. pkey. by rewrite lookup_insert_ne. Qed.

Lemma clf_args_has a z : ca_seed a = Some z -> clf_has a (clf_args_params a).
Proof.
  intros Hz. unfold clf_args_params. rewrite Hz.
  constructor; pkey; rewrite ?lookup_insert_ne by done; rewrite lookup_insert; cbn; try done.
  - by destruct (ca_boost a).
  - by exists z.
Qed.
Lemma reg_args_has a z : ra_seed a = Some z -> reg_has a (reg_args_params a).
Proof.
  intros Hz. unfold reg_args_params. rewrite Hz.
  constructor; pkey; rewrite ?lookup_insert_ne by done; rewrite lookup_insert; cbn; try done.
  - by destruct (ra_boost a).
  - by exists z.
Qed.

(** ** The factory chain as a decision *)
Record clf_raw (a : clf_args) (b : Z) (p : params) : Prop := {
  cw_clauses : P_clauses_per_label p = Ret (ca_clauses a);
  cw_states : P_number_of_states p = Ret (ca_states a);
  cw_s : P_s p = Ret (ca_s a);
  cw_threshold : P_threshold p = Ret (ca_threshold a);
  cw_weighted : P_weighted p = Ret (ca_weighted a);
  cw_maxw : P_max_weight p = Ret (ca_max_weight a);
  cw_boost : at_int p "boost_true_positive_feedback" = Ret b;
  cw_njobs : P_n_jobs p = Ret (ca_n_jobs a);
  cw_verbose : P_verbose p = Ret (ca_verbose a);
  cw_counting : P_counting_type p = Ret (ca_counting a);
  cw_tile : P_tile p = Ret (ca_tile a);
  cw_seed : p_at p "random_state" = Ret (match ca_seed a with Some z => PSeed z | None => PNone end) }.
Record reg_raw (a : reg_args) (b : Z) (p : params) : Prop := {
  rw_clauses : P_reg_clauses p = Ret (ra_clauses a);
  rw_states : P_number_of_states p = Ret (ra_states a);
  rw_s : P_s p = Ret (ra_s a);
  rw_threshold : P_threshold p = Ret (ra_threshold a);
  rw_weighted : P_weighted p = Ret (ra_weighted a);
  rw_maxw : P_max_weight p = Ret (ra_max_weight a);
  rw_boost : at_int p "boost_true_positive_feedback" = Ret b;
  rw_njobs : P_n_jobs p = Ret (ra_n_jobs a);
  rw_verbose : P_verbose p = Ret (ra_verbose a);
  rw_counting : P_counting_type p = Ret (ra_counting a);
  rw_tile : P_tile p = Ret (ra_tile a);
  rw_loss : P_loss_fn p = Ret (ra_loss a);
  rw_C1 : P_loss_C1 p = Ret (ra_C1 a);
  rw_box : P_box_muller p = Ret (ra_box_muller a);
  rw_seed : p_at p "random_state" = Ret (match ra_seed a with Some z => PSeed z | None => PNone end) }.

Definition norm_params (hw rd n_jobs : Z) (seed : option Z) (p : params) : params :=
  let p := if n_jobs =? -1 then <["n_jobs" := PInt (Z.max 1 (wrap_s 32 hw))]> p else p in
  match seed with Some _ => p | None => <["random_state" := PSeed (u32 rd)]> p end.

Definition counting_b (s : string) : bool :=
  ((s =? "auto")%string || (s =? "int8")%string || (s =? "int16")%string || (s =? "int32")%string).
Definition tile_b (v : Z) : bool := ((v =? 16) || (v =? 32) || (v =? 64) || (v =? 128)).
Definition loss_b (v : string) : bool :=
  ((v =? "L2")%string || (v =? "MSE")%string || (v =? "MAE")%string || (v =? "L1")%string
           || (v =? "berHu")%string || (v =? "L1+2")%string).
Definition clf_accept_b (a : clf_args) (b : Z) : bool :=
  ((ca_n_jobs a =? -1) || (1 <=? ca_n_jobs a)) && negb (ca_states a <? 1)
  && negb (f_lt (f64_of_f32 (ca_s a)) (f64_of_Z 1) || negb (is_finite_sf (ca_s a)))
  && negb ((ca_clauses a <? 1) || negb (Z.rem (ca_clauses a) 4 =? 0))
  && negb ((b <? 0) || (1 <? b)) && negb (ca_threshold a <? 1) && negb (ca_max_weight a <? 1)
  && counting_b (ca_counting a) && tile_b (ca_tile a).
Definition reg_accept_b (a : reg_args) (b : Z) : bool :=
  ((ra_n_jobs a =? -1) || (1 <=? ra_n_jobs a)) && negb (ra_states a <? 1)
  && negb (f_lt (f64_of_f32 (ra_s a)) (f64_of_Z 1) || negb (is_finite_sf (ra_s a)))
  && negb ((ra_clauses a <? 1) || negb (Z.rem (ra_clauses a) 2 =? 0))
  && negb ((b <? 0) || (1 <? b)) && negb (ra_threshold a <? 1) && negb (ra_max_weight a <? 1)
  && counting_b (ra_counting a) && loss_b (ra_loss a) && tile_b (ra_tile a).

Ltac pstep b := destruct b; cbn [obind right_flat_map right_map andb]; [|done].

Lemma clf_pipeline_spec hw rd a b p : clf_raw a b p ->
  classifier_pipeline hw rd (Right p) =
    Ret (if clf_accept_b a b then Right (norm_params hw rd (ca_n_jobs a) (ca_seed a) p) else Left S_BAD_JSON).
Proof.
  intros []. unfold classifier_pipeline, clf_accept_b. cbn [obind right_flat_map].
  unfold assert_n_jobs. rewrite cw_njobs0. unfold check. cbn [obind].
  pstep ((ca_n_jobs a =? -1) || (1 <=? ca_n_jobs a)). unfold assert_number_of_states.
  change (at_int p "number_of_states") with (P_number_of_states p). rewrite cw_states0. cbn [obind]. unfold check.
  pstep (negb (ca_states a <? 1)). unfold assert_specificity. change (at_real p "s") with (P_s p). rewrite cw_s0. cbn [obind]. unfold check.
  pstep (negb (f_lt (f64_of_f32 (ca_s a)) (f64_of_Z 1) || negb (is_finite_sf (ca_s a)))).
  unfold assert_clauses_per_label. rewrite cw_clauses0. cbn [obind]. unfold check.
  pstep (negb ((ca_clauses a <? 1) || negb (Z.rem (ca_clauses a) 4 =? 0))).
  unfold assert_boost. rewrite cw_boost0. cbn [obind]. unfold check. pstep (negb ((b <? 0) || (1 <? b))).
  unfold assert_threshold. change (at_int p "threshold") with (P_threshold p). rewrite cw_threshold0. cbn [obind]. unfold check.
  pstep (negb (ca_threshold a <? 1)).
  unfold assert_max_weight. rewrite cw_maxw0. cbn [obind]. unfold check. pstep (negb (ca_max_weight a <? 1)).
  unfold normalize_n_jobs. rewrite cw_njobs0. cbn [obind right_map].
  set (p1 := if ca_n_jobs a =? -1 then _ else _).
  assert (forall k, k <> "n_jobs"%string -> p1 !! k = p !! k) as E1.
  { intros k Hk. unfold p1. destruct (_ =? _); [|done]. by rewrite lookup_insert_ne. }
  unfold normalize_random_state. unfold p_at. rewrite E1 by done. unfold p_at in cw_seed0. rewrite cw_seed0. cbn [obind right_map].
  set (p2 := match match ca_seed a with Some z => PSeed z | None => PNone end with PNone => _ | _ => _ end).
  assert (forall k, k <> "n_jobs"%string -> k <> "random_state"%string -> p2 !! k = p !! k) as E2.
  { intros k Hk Hk'. unfold p2. destruct (ca_seed a); [by apply E1|]. rewrite lookup_insert_ne by done. by apply E1. }
  cbn [right_flat_map]. unfold assert_counting_type, P_counting_type, at_str, p_at. rewrite E2 by done.
  unfold P_counting_type, at_str, p_at in cw_counting0. rewrite cw_counting0. cbn [obind right_flat_map]. unfold check.
  fold (counting_b (ca_counting a)). pstep (counting_b (ca_counting a)).
  unfold assert_tile, P_tile, at_int, p_at. rewrite E2 by done.
  unfold P_tile, at_int, p_at in cw_tile0. rewrite cw_tile0. cbn [obind right_flat_map]. unfold check.
  fold (tile_b (ca_tile a)). destruct (tile_b (ca_tile a)); [|done]. do 2 f_equal.
  unfold norm_params, p2, p1. by destruct (ca_seed a).
Qed.
Lemma reg_pipeline_spec hw rd a b p : reg_raw a b p ->
  regressor_pipeline hw rd (Right p) =
    Ret (if reg_accept_b a b then Right (norm_params hw rd (ra_n_jobs a) (ra_seed a) p) else Left S_BAD_JSON).
Proof.
  intros []. unfold regressor_pipeline, reg_accept_b. cbn [obind right_flat_map].
  unfold assert_n_jobs. rewrite rw_njobs0. unfold check. cbn [obind].
  pstep ((ra_n_jobs a =? -1) || (1 <=? ra_n_jobs a)). unfold assert_number_of_states.
  change (at_int p "number_of_states") with (P_number_of_states p). rewrite rw_states0. cbn [obind]. unfold check.
  pstep (negb (ra_states a <? 1)). unfold assert_specificity. change (at_real p "s") with (P_s p). rewrite rw_s0. cbn [obind]. unfold check.
  pstep (negb (f_lt (f64_of_f32 (ra_s a)) (f64_of_Z 1) || negb (is_finite_sf (ra_s a)))).
  unfold assert_regressor_clauses. rewrite rw_clauses0. cbn [obind]. unfold check.
  pstep (negb ((ra_clauses a <? 1) || negb (Z.rem (ra_clauses a) 2 =? 0))).
  unfold assert_boost. rewrite rw_boost0. cbn [obind]. unfold check. pstep (negb ((b <? 0) || (1 <? b))).
  unfold assert_threshold. change (at_int p "threshold") with (P_threshold p). rewrite rw_threshold0. cbn [obind]. unfold check.
  pstep (negb (ra_threshold a <? 1)).
  unfold assert_max_weight. rewrite rw_maxw0. cbn [obind]. unfold check. pstep (negb (ra_max_weight a <? 1)).
  unfold normalize_n_jobs. rewrite rw_njobs0. cbn [obind right_map].
  set (p1 := if ra_n_jobs a =? -1 then _ else _).
  assert (forall k, k <> "n_jobs"%string -> p1 !! k = p !! k) as E1.
  { intros k Hk. unfold p1. destruct (_ =? _); [|done]. by rewrite lookup_insert_ne. }
  unfold normalize_random_state. unfold p_at. rewrite E1 by done. unfold p_at in rw_seed0. rewrite rw_seed0. cbn [obind right_map].
  set (p2 := match match ra_seed a with Some z => PSeed z | None => PNone end with PNone => _ | _ => _ end).
  assert (forall k, k <> "n_jobs"%string -> k <> "random_state"%string -> p2 !! k = p !! k) as E2.
  { intros k Hk Hk'. unfold p2. destruct (ra_seed a); [by apply E1|]. rewrite lookup_insert_ne by done. by apply E1. }
  cbn [right_flat_map]. unfold assert_counting_type, P_counting_type, at_str, p_at. rewrite E2 by done.
  unfold P_counting_type, at_str, p_at in rw_counting0. rewrite rw_counting0. cbn [obind right_flat_map]. unfold check.
  fold (counting_b (ra_counting a)). pstep (counting_b (ra_counting a)).
  unfold assert_loss, at_str, p_at. rewrite E2 by done.
  unfold P_loss_fn, at_str, p_at in rw_loss0. rewrite rw_loss0. cbn [obind right_flat_map]. unfold check.
  fold (loss_b (ra_loss a)). pstep (loss_b (ra_loss a)).
  unfold assert_tile, P_tile, at_int, p_at. rewrite E2 by done.
  unfold P_tile, at_int, p_at in rw_tile0. rewrite rw_tile0. cbn [obind right_flat_map]. unfold check.
  fold (tile_b (ra_tile a)). destruct (tile_b (ra_tile a)); [|done]. do 2 f_equal.
  unfold norm_params, p2, p1. by destruct (ra_seed a).
Qed.

Lemma counting_b_iff s : counting_b s = true <-> counting_known s.
Proof.
  unfold counting_b, counting_known. rewrite !orb_true_iff, !String.eqb_eq. tauto.
Qed.
Lemma loss_b_iff s : loss_b s = true <-> loss_known s.
Proof. unfold loss_b, loss_known. rewrite !orb_true_iff, !String.eqb_eq. tauto. Qed.
Lemma tile_b_iff s : tile_b s = true <-> tile_known s.
Proof. unfold tile_b, tile_known. rewrite !orb_true_iff, !Z.eqb_eq. tauto. Qed.
Lemma negb_ltb_iff a b : negb (a <? b) = true <-> b <= a.
Proof. rewrite negb_true_iff, Z.ltb_ge. done. Qed.
Lemma s_valid_check s : negb (f_lt (f64_of_f32 s) (f64_of_Z 1) || negb (is_finite_sf s)) = s_valid s.
Proof. unfold s_valid. destruct (f_lt _ _), (is_finite_sf s); done. Qed.
Lemma clauses_check v k : 0 < k -> negb ((v <? 1) || negb (Z.rem v k =? 0)) = true <-> (1 <= v /\ v mod k = 0).
Proof.
  intros Hk. rewrite negb_true_iff, orb_false_iff, Z.ltb_ge, negb_false_iff, Z.eqb_eq.
  split; intros [H1 H2]; (split; [done|]); by rewrite ?Z.rem_mod_nonneg, <- ?Z.rem_mod_nonneg in * by lia.
Qed.
Lemma clf_accept_iff a b : clf_accept_b a b = true <-> clf_acceptable a /\ (b = 0 \/ b = 1).
Proof.
  unfold clf_accept_b. rewrite !andb_true_iff, s_valid_check, counting_b_iff, tile_b_iff, !negb_ltb_iff, clauses_check,
    orb_true_iff, Z.eqb_eq, Z.leb_le, negb_true_iff, orb_false_iff, !Z.ltb_ge by lia.
  split.
  - intros ((((((((H1 & H2) & H3) & H4) & H5) & H6) & H7) & H8) & H9). split; [by constructor|lia].
  - intros [[] Hb]. repeat (split; [|done || lia]); done || lia.
Qed.
Lemma reg_accept_iff a b : reg_accept_b a b = true <-> reg_acceptable a /\ (b = 0 \/ b = 1).
Proof.
  unfold reg_accept_b. rewrite !andb_true_iff, s_valid_check, counting_b_iff, loss_b_iff, tile_b_iff, !negb_ltb_iff, clauses_check,
    orb_true_iff, Z.eqb_eq, Z.leb_le, negb_true_iff, orb_false_iff, !Z.ltb_ge by lia.
  split.
  - intros (((((((((H1 & H2) & H3) & H4) & H5) & H6) & H7) & H8) & H9) & H10). split; [by constructor|lia].
  - intros [[] Hb]. repeat (split; [|done || lia]); done || lia.
Qed.
Lemma clf_args_raw a : clf_raw a (if ca_boost a then 1 else 0) (clf_args_params a).
Proof.
  unfold clf_args_params. constructor; pkey; rewrite ?lookup_insert_ne by done; rewrite lookup_insert; cbn; done.
Qed.
Lemma reg_args_raw a : reg_raw a (if ra_boost a then 1 else 0) (reg_args_params a).
Proof.
  unfold reg_args_params. constructor; pkey; rewrite ?lookup_insert_ne by done; rewrite lookup_insert; cbn; done.
Qed.

(** normalised sets *)
Lemma norm_params_lookup hw rd n s p k : k <> "n_jobs"%string -> k <> "random_state"%string ->
  norm_params hw rd n s p !! k = p !! k.
Proof.
  intros H1 H2. unfold norm_params. destruct s, (n =? -1); rewrite ?lookup_insert_ne by done; done.
Qed.
Lemma norm_params_jobs hw rd n s p : P_n_jobs p = Ret n -> P_n_jobs (norm_params hw rd n s p) = Ret (norm_jobs hw n).
Proof.
  intros H. unfold norm_params, norm_jobs. destruct s, (n =? -1); pkey; rewrite ?(lookup_insert_ne _ "random_state"%string) by done;
    rewrite ?lookup_insert; done.
Qed.
Lemma norm_params_seed hw rd n s p : p_at p "random_state" = Ret (match s with Some z => PSeed z | None => PNone end) ->
  exists z, norm_seed rd s = Some z /\ P_random_state (norm_params hw rd n s p) = Ret z.
Proof.
  intros H. unfold norm_params, norm_seed. destruct s as [z|].
  - exists z. split; [done|]. pkey. destruct (n =? -1); rewrite ?lookup_insert_ne by done; by rewrite H.
  - eexists. split; [done|]. pkey. by rewrite lookup_insert.
Qed.
Lemma clf_norm_has hw rd a b p : clf_raw a b p -> ca_boost a = negb (b =? 0) ->
  clf_has (clf_norm hw rd a) (norm_params hw rd (ca_n_jobs a) (ca_seed a) p).
Proof.
  intros [] Hb. constructor; cbn [clf_norm ca_clauses ca_states ca_s ca_threshold ca_weighted ca_max_weight ca_boost ca_n_jobs
      ca_verbose ca_counting ca_tile ca_seed];
    try (by apply norm_params_jobs); try (by apply norm_params_seed);
    pkey; rewrite norm_params_lookup by done; try done.
  rewrite Hb. unfold at_int, p_at in cw_boost0. by rewrite cw_boost0.
Qed.
Lemma reg_norm_has hw rd a b p : reg_raw a b p -> ra_boost a = negb (b =? 0) ->
  reg_has (reg_norm hw rd a) (norm_params hw rd (ra_n_jobs a) (ra_seed a) p).
Proof.
  intros [] Hb. constructor; cbn [reg_norm ra_clauses ra_states ra_s ra_threshold ra_weighted ra_max_weight ra_boost ra_n_jobs
      ra_verbose ra_counting ra_tile ra_loss ra_C1 ra_box_muller ra_seed];
    try (by apply norm_params_jobs); try (by apply norm_params_seed);
    pkey; rewrite norm_params_lookup by done; try done.
  rewrite Hb. unfold at_int, p_at in rw_boost0. by rewrite rw_boost0.
Qed.

(** sets for which an estimator can be created: typed, acceptable, normalised *)
Record clf_valid (a : clf_args) : Prop := {
  cva_typed : clf_typed a; cva_acc : clf_acceptable a; cva_jobs : 1 <= ca_n_jobs a }.
Record reg_valid (a : reg_args) : Prop := {
  rva_typed : reg_typed a; rva_acc : reg_acceptable a; rva_jobs : 1 <= ra_n_jobs a }.
Lemma norm_jobs_valid hw n : is_int n -> n = -1 \/ 1 <= n -> is_int (norm_jobs hw n) /\ 1 <= norm_jobs hw n.
Proof.
  intros Hn Ha. unfold norm_jobs, is_int, int_min, int_max in *. destruct (Z.eqb_spec n (-1)); [|lia].
  unfold wrap_s. change (2 ^ (32 - 1)) with 2147483648. change (2 ^ 32) with 4294967296.
  pose proof (Z.mod_pos_bound (hw + 2147483648) 4294967296 ltac:(lia)). lia.
Qed.
Lemma clf_norm_valid hw rd a : clf_typed a -> clf_acceptable a -> clf_valid (clf_norm hw rd a).
Proof.
  intros [] []. destruct (norm_jobs_valid hw (ca_n_jobs a)) as [H1 H2]; [done|done|].
  constructor; [constructor|constructor|]; cbn; auto.
  destruct (ca_seed a); [done|]. cbn. unfold u32. apply Z.mod_pos_bound. lia.
Qed.
Lemma reg_norm_valid hw rd a : reg_typed a -> reg_acceptable a -> reg_valid (reg_norm hw rd a).
Proof.
  intros [] []. destruct (norm_jobs_valid hw (ra_n_jobs a)) as [H1 H2]; [done|done|].
  constructor; [constructor|constructor|]; cbn; auto.
  destruct (ra_seed a); [done|]. cbn. unfold u32. apply Z.mod_pos_bound. lia.
Qed.

(** parameter sets made by the argument factories *)
Lemma clf_args_factory hw rd a : make_classifier_params_from_args hw rd a =
  Ret (if clf_accept_b a (if ca_boost a then 1 else 0)
       then Right (norm_params hw rd (ca_n_jobs a) (ca_seed a) (clf_args_params a)) else Left S_BAD_JSON).
Proof. apply clf_pipeline_spec, clf_args_raw. Qed.
Lemma reg_args_factory hw rd a : make_regressor_params_from_args hw rd a =
  Ret (if reg_accept_b a (if ra_boost a then 1 else 0)
       then Right (norm_params hw rd (ra_n_jobs a) (ra_seed a) (reg_args_params a)) else Left S_BAD_JSON).
Proof. apply reg_pipeline_spec, reg_args_raw. Qed.
