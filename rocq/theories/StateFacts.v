(** * Facts about saving and loading (StateJson.v): what was written is read back. *)
From Verif Require Import FloatFacts.
From Verif Require Export StateJson JsonFacts MtInst SimFacts.
From Coq Require Import Reals Lra.
From Flocq Require Import Core.Core BinarySingleNaN.
From stdpp Require Import list.
Local Open Scope Z_scope.

(** ** JSON *)
Lemma obj_find_reparse l k : obj_find (map (fun '(k, v) => (k, reparse v)) l) k = reparse <$> obj_find l k.
Proof. induction l as [|[k' v] l IH]; [done|]. cbn. by destruct (k =? k')%string. Qed.
Lemma at_reparse ms k v : last_value ms k = Some v -> j_at (reparse (jobject ms)) k = Ret (reparse v).
Proof.
  intros E. rewrite jobject_members. cbn [reparse j_at]. rewrite obj_find_reparse, members_find, E. done.
Qed.
Lemma omap_map {A B C} (f : A -> B) (rd : B -> outcome C) (l : list A) (g : A -> C) :
  Forall (fun a => rd (f a) = Ret (g a)) l -> Base.omap rd (map f l) = Ret (map g l).
Proof. induction 1 as [|a l H _ IH]; [done|]. cbn. rewrite H. cbn. rewrite IH. done. Qed.
Lemma omap_map_id {A B} (f : A -> B) (rd : B -> outcome A) (l : list A) :
  Forall (fun a => rd (f a) = Ret a) l -> Base.omap rd (map f l) = Ret l.
Proof. intros H. rewrite (omap_map f rd l (fun a => a) H). by rewrite map_id. Qed.
Lemma vec_reparse {A} (f : A -> json) (rd : json -> outcome A) l : Forall (fun a => rd (reparse (f a)) = Ret a) l ->
  j_vec rd (reparse (JArr (map f l))) = Ret l.
Proof. intros H. cbn [reparse j_vec]. rewrite map_map. by apply omap_map_id. Qed.
Lemma u32_id z : 0 <= z < 4294967296 -> u32 z = z.
Proof. intros H. unfold u32. by apply Z.mod_small. Qed.
Lemma read_u32 z : 0 <= z < 4294967296 -> j_u32 (reparse (JUns z)) = Ret z.
Proof. intros H. cbn. by rewrite u32_id. Qed.

(** ** float -> double -> text -> double -> float *)
Lemma f32_back x : fin32 x -> f32_of_f64 (f64_of_f32 x) = x.
Proof.
  intros Hx. destruct (f64_of_f32_spec x Hx) as [F V]. destruct x as [s|s| |s m e]; try (destruct Hx as [_ Hx]; done).
  set (x := S754_finite s m e) in *.
  assert (val x <> 0%R) as Hne.
  { unfold x, val. cbn. destruct s; apply F2R_neq_0; cbn; lia. }
  destruct (f64_of_f32 x) as [s'|s'| |s' m' e'] eqn:E; try (destruct F as [_ F]; done).
  unfold f32_of_f64. assert (F2R (Float radix2 (Floats.cond_neg s' (Zpos m')) e') = val x) as Ev.
  { rewrite <- V. unfold val. cbn. by destruct s'. }
  pose proof (fin_fmt _ _ _ Hx) as Hf. pose proof (fin_range _ _ _ Hx) as Hr.
  destruct (normalize_spec 24 128 p32 m32 (Floats.cond_neg s' (Zpos m')) e' s') as [H1 H2].
  - rewrite Ev. unfold FloatBase.in_range. by rewrite (rne_id 24 128 _ Hf).
  - apply (val_inj 24 128); [done|done| |]; rewrite H2, Ev, (rne_id 24 128 _ Hf); done.
Qed.
Lemma read_f32 x : fin32 x -> j_f32 (reparse (JFlt (f64_of_f32 x))) = Ret x.
Proof. intros Hx. destruct (f64_of_f32_spec x Hx) as [[_ F] _]. cbn [reparse]. rewrite F. cbn [j_f32]. by rewrite f32_back. Qed.

(** ** Generators *)
Lemma copy_full {A} (src dst : list A) : length src = length dst -> copy_to src dst = Ret src.
Proof.
  intros E. unfold copy_to. destruct (decide _) as [_|H]; [|lia]. rewrite E, drop_all, app_nil_r. reflexivity.
Qed.
Lemma mt_back {V} (zero : V) wr rd good g : mt_ok good g -> Forall (fun v => rd (reparse (wr v)) = Ret v) (mt_res g) ->
  mt_from_json zero rd (reparse (mt_to_json wr g)) = Ret g.
Proof.
  intros Hok Hres. unfold mt_from_json, mt_to_json.
  rewrite (at_reparse _ _ (JUns (Z.of_nat (mt_index g)))) by reflexivity. cbn [obind].
  pose proof (mo_index _ _ Hok) as Hi. pose proof MTLEN_Z as HL.
  rewrite read_u32 by lia. cbn [obind].
  rewrite (at_reparse _ _ (JArr (map wr (mt_res g)))) by reflexivity. cbn [obind].
  rewrite (vec_reparse wr rd) by exact Hres. cbn [obind].
  rewrite copy_full; [|rewrite (mo_res _ _ Hok); cbn [mt_init mt_res]; by rewrite replicate_length]. cbn [obind].
  rewrite (at_reparse _ _ (JArr (map JUns (mt_mt g)))) by reflexivity. cbn [obind].
  rewrite (vec_reparse JUns j_u32).
  2:{ eapply Forall_impl; [exact (mo_words _ _ Hok)|]. intros z Hz. apply read_u32. exact Hz. }
  cbn [obind]. rewrite copy_full.
  2:{ rewrite (mo_mt _ _ Hok). cbn [mt_init mt_mt]. destruct (seed_spec 1) as (L & _). symmetry. exact L. }
  cbn [obind]. rewrite Nat2Z.id. destruct g; reflexivity.
Qed.
Lemma irng_back g : irng_ok g -> irng_from_json (reparse (irng_to_json g)) = Ret g.
Proof. intros [H1 H2]. apply (mt_back _ _ _ w32); [exact H1|]. eapply Forall_impl; [exact H2|]. intros z Hz. by apply read_u32. Qed.
Lemma frng_back f : frng_ok f -> frng_from_json (reparse (frng_to_json f)) = Ret f.
Proof. intros [H1 H2]. apply (mt_back _ _ _ f_unit); [exact H1|]. eapply Forall_impl; [exact H2|]. intros z Hz. by apply read_f32. Qed.

(** ** Matrices *)
Lemma nm_ext m m' : nm_wf m -> nm_wf m' -> nm_same_shape m m' ->
  (forall r c, (r < nm_rows m)%nat -> (c < nm_cols m)%nat -> nm_cell m' r c = nm_cell m r c) -> m' = m.
Proof.
  intros [[Hs Hl] [Hp _]] [[Hs' Hl'] [Hp' _]] Hsh Hc. pose proof (nm_same_stride _ _ Hsh) as Est. destruct Hsh as (Ew & Er & Ec).
  assert (nm_data m' = nm_data m) as Ed.
  { apply (list_eq_same_length _ _ (nm_rows m * nm_stride m)); [done|by rewrite Hl', Er, Est|].
    intros i x y Hi Hx Hy.
    assert (0 < nm_stride m)%nat as Hst by (destruct (nm_stride m); lia).
    set (r := (i / nm_stride m)%nat). set (c := (i mod nm_stride m)%nat).
    assert (i = r * nm_stride m + c)%nat as Ei by (unfold r, c; rewrite (Nat.div_mod i (nm_stride m)) at 1; lia).
    assert (c < nm_stride m)%nat as Hcs by (apply Nat.mod_upper_bound; lia).
    assert (r < nm_rows m)%nat as Hr by (apply Nat.div_lt_upper_bound; lia).
    assert (nm_cell m r c = y) as Ey by (unfold nm_cell, nm_offset; by rewrite <- Ei, Hy).
    assert (nm_cell m' r c = x) as Ex by (unfold nm_cell, nm_offset; by rewrite Est, <- Ei, Hx).
    rewrite <- Ex, <- Ey. destruct (decide (c < nm_cols m)%nat) as [H|H]; [by apply Hc|].
    rewrite Hp by lia. apply Hp'. lia. }
  destruct m, m'; cbn in *. congruence.
Qed.
Lemma omap_ret {A B} (f : A -> outcome B) (g : A -> B) l : (forall a, a ∈ l -> f a = Ret (g a)) -> Base.omap f l = Ret (map g l).
Proof.
  induction l as [|a l IH]; intros H; [done|]. cbn. rewrite H by left. cbn. rewrite IH; [done|]. intros b Hb. apply H. by right.
Qed.
Definition nm_row (m : nmatrix) (r : nat) : list Z := map (nm_cell m r) (seq 0 (nm_cols m)).
Lemma nm_saved m : nm_wf m ->
  nm_to_json m = Ret (jobject [("width", JUns (nm_w m / 8)); ("data", JArr (map (fun r => JArr (map JInt (nm_row m r))) (seq 0 (nm_rows m))))]%string).
Proof.
  intros H. unfold nm_to_json. rewrite (omap_ret _ (fun r => JArr (map JInt (nm_row m r)))); [done|].
  intros r Hr. apply elem_of_seq in Hr. rewrite (omap_ret _ (nm_cell m r)); [done|].
  intros c Hc. apply elem_of_seq in Hc. apply nm_get_spec; [done|lia|lia].
Qed.
Lemma read_sint w z : 0 < w -> in_w w z -> j_sint w (reparse (JInt z)) = Ret z.
Proof. intros Hw Hz. cbn [reparse]. destruct (z <? 0); cbn; by rewrite wrap_in_w. Qed.
Lemma write_row_spec p r c l : nm_wf p -> 0 < nm_w p -> (r < nm_rows p)%nat -> (c + length l <= nm_cols p)%nat -> Forall (in_w (nm_w p)) l ->
  exists p', write_row p r c (map (fun z => reparse (JInt z)) l) = Ret p' /\ nm_wf p' /\ nm_same_shape p p' /\
    forall r' c', (c' < nm_cols p)%nat -> nm_cell p' r' c' =
      if Nat.eqb r' r then match (if decide (c <= c')%nat then l !! (c' - c)%nat else None) with Some z => z | None => nm_cell p r' c' end
      else nm_cell p r' c'.
Proof.
  revert p c. induction l as [|z l IH]; intros p c Hwf Hw Hr Hc HF; cbn [map write_row].
  - exists p. split; [done|]. split; [done|]. split; [done|]. intros r' c' _. destruct (Nat.eqb r' r); [|done]. by destruct (decide _).
  - apply Forall_cons in HF as [Hz HF]. cbn [length] in Hc. rewrite read_sint by done. cbn [obind].
    destruct (nm_set_spec p r c z Hwf) as (p1 & -> & Hwf1 & Hs1 & Hc1); [done|lia|]. cbn [obind]. pose proof Hs1 as (Ew & Er & Ec).
    destruct (IH p1 (S c)) as (p2 & E2 & Hwf2 & Hs2 & Hc2); [done|by rewrite Ew|by rewrite Er|rewrite Ec; lia|by rewrite Ew|].
    exists p2. split; [exact E2|]. split; [done|]. split; [destruct Hs2 as (?&?&?); split_and!; congruence|].
    intros r' c' Hc'. rewrite Hc2 by congruence. rewrite Hc1 by done. rewrite (wrap_in_w _ _ Hw Hz).
    destruct (Nat.eqb_spec r' r) as [->|]; [|done]. cbn [andb]. destruct (Nat.eqb_spec c' c) as [->|Hne].
    + rewrite decide_False by lia. rewrite decide_True by lia. by rewrite Nat.sub_diag.
    + destruct (decide (S c <= c')%nat).
      * rewrite decide_True by lia. replace (c' - c)%nat with (S (c' - S c))%nat by lia. done.
      * rewrite decide_False by lia. done.
Qed.
Lemma nm_back m : nm_good m -> nm_w m = 8 \/ nm_w m = 16 \/ nm_w m = 32 -> (0 < nm_rows m)%nat ->
  exists j, nm_to_json m = Ret j /\ nm_from_json (reparse j) = Ret m.
Proof.
  intros (Hwf & Hw & Hin) Hw3 Hrows. eexists. split; [by apply nm_saved|]. unfold nm_from_json.
  rewrite (at_reparse _ _ (JUns (nm_w m / 8))) by reflexivity. cbn [obind reparse j_u64].
  rewrite (at_reparse _ _ (JArr (map (fun r => JArr (map JInt (nm_row m r))) (seq 0 (nm_rows m))))) by reflexivity. cbn [obind].
  cbn [reparse]. rewrite map_map. cbn [j_size]. rewrite map_length, seq_length.
  assert (forall r, (r < nm_rows m)%nat -> j_index (JArr (map (fun x => reparse (JArr (map JInt (nm_row m x)))) (seq 0 (nm_rows m)))) r =
    Ret (JArr (map (fun z => reparse (JInt z)) (nm_row m r)))) as Hrow.
  { intros r Hr. cbn [j_index]. unfold vget. rewrite list_lookup_fmap. rewrite lookup_seq_lt by done. cbn. by rewrite map_map. }
  rewrite Hrow by done. cbn [obind j_size]. unfold nm_row at 1. rewrite !map_length, seq_length.
  assert ((if (nm_w m / 8) mod 18446744073709551616 =? 1 then 8 else if (nm_w m / 8) mod 18446744073709551616 =? 2 then 16 else 32) = nm_w m) as ->.
  { by destruct Hw3 as [->|[->| ->]]. }
  set (p0 := nm_new (nm_w m) (nm_rows m) (nm_cols m)).
  assert (nm_same_shape m p0) as Hs0 by done.
  assert (nm_wf p0) as Hwf0.
  { destruct Hwf as [[Ha Hb] [_ Hd]]. split; [split|split].
    - exact Ha.
    - rewrite (nm_same_stride _ _ Hs0). cbn [p0 nm_new nm_data nm_rows]. rewrite replicate_length. unfold nm_alloc in Hd. by rewrite <- Hd.
    - intros r c _. apply nm_new_cell.
    - unfold nm_alloc, p0, nm_new. cbn. by rewrite replicate_length. }
  destruct (ofor_inv (fun i p => nm_wf p /\ nm_same_shape m p /\ forall r c, (r < i)%nat -> (c < nm_cols m)%nat -> nm_cell p r c = nm_cell m r c)
    0 (nm_rows m) p0 (fun rit p => let* row := j_index (JArr (map (fun x => reparse (JArr (map JInt (nm_row m x)))) (seq 0 (nm_rows m)))) rit in
      write_row p rit 0 (j_elements row))) as (p' & Ep & Hwf' & Hs' & Hc').
  - split; [done|]. split; [done|]. intros; lia.
  - intros i p Hi (Hwfp & Hsp & Hcp). rewrite Hrow by lia. cbn [obind j_elements]. pose proof Hsp as (Ew & Er & Ec).
    destruct (write_row_spec p i 0 (nm_row m i)) as (p1 & E1 & Hwf1 & Hs1 & Hc1).
    + done.
    + by rewrite Ew.
    + rewrite Er. lia.
    + unfold nm_row. rewrite map_length, seq_length, Ec. lia.
    + rewrite Ew. apply Forall_map, Forall_seq. intros c Hc. apply Hin; lia.
    + exists p1. split; [exact E1|]. split; [done|]. split; [destruct Hs1 as (?&?&?); split_and!; congruence|].
      intros r c Hr Hc. rewrite Hc1 by congruence. destruct (Nat.eqb_spec r i) as [->|]; [|apply Hcp; lia].
      rewrite decide_True by lia. unfold nm_row. rewrite Nat.sub_0_r, list_lookup_fmap, lookup_seq_lt by done. done.
  - rewrite Ep. f_equal. apply nm_ext; auto.
Qed.
Lemma bm_back p : bm_wf 64 p -> bm_row_blocks p = Z.to_nat (row_blocks 64 (bm_cols p)) ->
  Z.of_nat (bm_rows p) < 4294967296 -> Z.of_nat (bm_cols p) < 4294967296 -> bm_from_json (reparse (bm_to_json p)) = Ret p.
Proof.
  intros (_ & _ & Hb) Erb Hr Hc. unfold bm_from_json, bm_to_json.
  rewrite (at_reparse _ _ (JUns (Z.of_nat (bm_rows p)))) by reflexivity. cbn [obind]. rewrite read_u32 by lia. cbn [obind].
  rewrite (at_reparse _ _ (JUns (Z.of_nat (bm_cols p)))) by reflexivity. cbn [obind]. rewrite read_u32 by lia. cbn [obind].
  rewrite (at_reparse _ _ (JArr (map (fun b => JUns (Z.of_N b)) (bm_data p)))) by reflexivity. cbn [obind].
  cbn [reparse j_vec]. rewrite map_map. cbn [reparse].
  rewrite (omap_map _ _ _ Z.of_N).
  2:{ eapply Forall_impl; [exact Hb|]. intros b H. cbn. f_equal. apply Z.mod_small. apply block_ok_lt in H. split; [lia|]. change 18446744073709551616 with (Z.of_N (2 ^ 64)). apply N2Z.inj_lt. exact H. }
  cbn [obind]. rewrite map_map. rewrite (map_ext _ (fun b => b)) by (intros; apply N2Z.id). rewrite map_id.
  rewrite !Nat2Z.id. unfold bm_new. cbn. rewrite <- Erb. destruct p; done.
Qed.

(** ** Parameters *)
(** a value of the type of its parameter *)
Definition storable (k : string) (v : pvalue) : Prop :=
  match v with
  | PInt z => is_int z /\ k <> "random_state"%string
  | PSeed z => 0 <= z < 4294967296 /\ k = "random_state"%string
  | PReal x => SpecFloat.valid_binary 24 128 x = true
  | PBool _ | PNone | PStr _ => True
  end.
(** what remains of it: a real number that is not finite is lost *)
Definition kept (v : pvalue) : pvalue :=
  match v with PReal x => if is_finite_sf x then v else PNone | _ => v end.
Definition kept_params (p : params) : params := kept <$> p.
Definition storable_params (p : params) : Prop := forall k v, p !! k = Some v -> storable k v.

Lemma value_back k v : storable k v -> exists v', pv_from_json (reparse (pv_to_json v)) = Ret v' /\ recast k v' = kept v.
Proof.
  intros H. destruct v as [z|z|x|b| |s]; cbn [pv_to_json storable] in *.
  - destruct H as [Hz Hk]. unfold is_int, int_min, int_max in Hz. cbn [reparse]. destruct (Z.ltb_spec z 0); cbn [pv_from_json j_u32 j_int obind]; eexists; (split; [done|]).
    + cbn. rewrite wrap_s_id by lia. done.
    + cbn [recast]. rewrite (proj2 (String.eqb_neq _ _) Hk). rewrite u32_id by lia. by rewrite wrap_s_id by lia.
  - destruct H as [Hz ->]. cbn. eexists. split; [done|]. cbn. by rewrite u32_id.
  - cbn [kept]. destruct (is_finite_sf x) eqn:Hf.
    + destruct (f64_of_f32_spec x (conj H Hf)) as [[_ F] _]. cbn [reparse]. rewrite F. cbn [pv_from_json j_f32 obind]. eexists. split; [done|].
      cbn. by rewrite f32_back.
    + destruct x; try discriminate Hf; by eexists.
  - by eexists.
  - by eexists.
  - by eexists.
Qed.
Lemma members_read_spec l : (forall k v, obj_find l k = Some v -> exists v', pv_from_json v = Ret v') ->
  sorted_obj l -> exists p, members_read l = Ret p /\ forall k, match obj_find l k with
    | Some v => exists v', pv_from_json v = Ret v' /\ p !! k = Some v' | None => p !! k = None end.
Proof.
  induction l as [|[k v] l IH]; intros H Hs; cbn [members_read].
  - exists ∅. split; [done|]. intros k. cbn. apply lookup_empty.
  - inversion Hs as [|? ? Hs' Hlt]; subst.
    assert (forall k' v', obj_find l k' = Some v' -> k' <> k) as Hne.
    { intros k' v' E ->. apply obj_find_in in E. rewrite Forall_forall in Hlt. apply Hlt in E. by apply key_lt_irrefl in E. }
    destruct (H k v) as [v' Ev]; [cbn; by rewrite String.eqb_refl|].
    destruct IH as (p & Ep & Hp); [|done|].
    { intros k' w E. apply (H k'). cbn. rewrite (proj2 (String.eqb_neq _ _) (Hne _ _ E)). done. }
    rewrite Ev. cbn [obind]. rewrite Ep. cbn [obind]. eexists. split; [done|]. intros q. cbn [obj_find].
    destruct (String.eqb_spec q k) as [->|Hq]; [exists v'; by rewrite lookup_insert|]. rewrite lookup_insert_ne by done. apply Hp.
Qed.
Lemma params_members (p : params) k :
  last_value (map (fun '(k, v) => (k, pv_to_json v)) (map_to_list p)) k = pv_to_json <$> p !! k.
Proof.
  destruct (p !! k) as [v|] eqn:E.
  - apply last_value_in.
    + rewrite map_map. replace (map _ (map_to_list p)) with (map_to_list p).*1; [apply NoDup_fst_map_to_list|].
      apply list_fmap_ext. intros _ [? ?] _. done.
    + apply elem_of_list_fmap. exists (k, v). split; [done|]. by apply elem_of_map_to_list.
  - destruct (last_value _ k) as [v|] eqn:Ev; [|done]. apply last_value_mem in Ev. apply elem_of_list_fmap in Ev as ([k' v'] & [= -> ->] & Hin).
    apply elem_of_map_to_list in Hin. congruence.
Qed.
Lemma params_back p : storable_params p ->
  exists q, params_from_json (reparse (params_to_json p)) = Ret q /\ recast_params q = kept_params p.
Proof.
  intros Hst. unfold params_to_json. rewrite jobject_members. cbn [reparse params_from_json].
  set (ms := map _ (map_to_list p)).
  assert (forall k, obj_find (map (fun '(k, v) => (k, reparse v)) (members ms)) k = (fun v => reparse (pv_to_json v)) <$> p !! k) as Hf.
  { intros k. rewrite obj_find_reparse, members_find. unfold ms. rewrite params_members. by destruct (p !! k). }
  destruct (members_read_spec (map (fun '(k, v) => (k, reparse v)) (members ms))) as (q & Eq & Hq).
  - intros k v. rewrite Hf. destruct (p !! k) as [w|] eqn:Ek; [|done]. intros [= <-]. destruct (value_back k w (Hst _ _ Ek)) as (v' & ? & _). eauto.
  - pose proof (members_sorted ms) as Hs. revert Hs. unfold sorted_obj. generalize (members ms). intros l Hl.
    induction Hl as [|[k v] l Hl IH Hlt]; cbn [map]; constructor; [done|]. apply Forall_map. eapply Forall_impl; [exact Hlt|]. by intros [? ?].
  - exists q. split; [exact Eq|]. apply map_eq. intros k. unfold recast_params. rewrite map_lookup_imap. specialize (Hq k). rewrite Hf in Hq.
    unfold kept_params. rewrite lookup_fmap. destruct (p !! k) as [v|] eqn:Ek; cbn in Hq.
    + destruct Hq as (v' & E1 & ->). destruct (value_back k v (Hst _ _ Ek)) as (v2 & E2 & Ek2). rewrite E1 in E2. injection E2 as ->. cbn. by rewrite Ek2.
    + by rewrite Hq.
Qed.
(** nothing is lost when all real values are finite *)
Definition finite_reals (p : params) : Prop := forall k x, p !! k = Some (PReal x) -> is_finite_sf x = true.
Lemma kept_finite p : finite_reals p -> kept_params p = p.
Proof.
  intros H. apply map_eq. intros k. unfold kept_params. rewrite lookup_fmap. destruct (p !! k) as [v|] eqn:E; [|done]. cbn.
  destruct v; try done. cbn. by rewrite (H _ _ E).
Qed.
Lemma kept_lookup p k : kept_params p !! k = kept <$> p !! k.
Proof. apply lookup_fmap. Qed.
Lemma kept_int p k : at_int (kept_params p) k = at_int p k.
Proof. unfold at_int, p_at. rewrite kept_lookup. destruct (p !! k) as [[]|]; cbn; try done. by destruct (is_finite_sf _). Qed.
Lemma kept_bool p k : at_bool (kept_params p) k = at_bool p k.
Proof. unfold at_bool, p_at. rewrite kept_lookup. destruct (p !! k) as [[]|]; cbn; try done. by destruct (is_finite_sf _). Qed.
Lemma kept_str p k : at_str (kept_params p) k = at_str p k.
Proof. unfold at_str, p_at. rewrite kept_lookup. destruct (p !! k) as [[]|]; cbn; try done. by destruct (is_finite_sf _). Qed.
Lemma kept_real p k x : at_real p k = Ret x -> at_real (kept_params p) k = if is_finite_sf x then Ret x else Throw BadVariant.
Proof. unfold at_real, p_at. rewrite kept_lookup. destruct (p !! k) as [[]|]; cbn; try done. intros [= <-]. by destruct (is_finite_sf _). Qed.

(** ** Learning state *)
(** the saved form of the learning state of the two algorithms *)
Inductive tsetlini_codec (R : rnd) : forall A : algo R, aview A -> pol_codec (a_pol A) -> Prop :=
| codec_classic : tsetlini_codec R (classic R) (cl_view R) classic_codec
| codec_bitwise : tsetlini_codec R (Algo.bitwise R) (bw_view R) bitwise_codec.
Lemma codec_algo R A vw C : tsetlini_codec R A vw C -> tsetlini_algo R A vw.
Proof. intros []; constructor. Qed.

Definition ta_restored {P} (C : pol_codec P) (s : tastate P) : Prop :=
  exists j, ta_to_json C s = Ret j /\ ta_from_json C (reparse j) = Ret s.
Lemma weights_back ws : Forall (fun w => 0 <= w < 4294967296) ws -> j_vec j_u32 (reparse (JArr (map JUns ws))) = Ret ws.
Proof. intros H. apply vec_reparse. eapply Forall_impl; [exact H|]. intros z Hz. by apply read_u32. Qed.
Lemma alloc_cols m : nm_wf m -> (2 <= nm_rows m)%nat -> Z.of_nat (nm_cols m) <= int_max.
Proof.
  intros [[Hs Hl] [_ Ha]] Hr. unfold nm_alloc in Ha. rewrite Hl in Ha.
  assert (0 <= u32 (row_items (nm_w m) (nm_cols m) * Z.of_nat (nm_rows m)) < 4294967296) by (unfold u32; apply Z.mod_pos_bound; lia).
  unfold int_max. nia.
Qed.
Lemma classic_restored w N (R : rnd) n nf m ws (p : unit) : (w = 8 \/ w = 16 \/ w = 32) -> cl_inv R w N n nf m p -> (0 < n)%nat ->
  Forall (fun w => 0 <= w < 4294967296) ws -> Z.of_nat nf <= int_max /\ ta_restored classic_codec (TA m ws p).
Proof.
  intros Hw (Hg & Ew & Er & Ec & _) Hn Hws. split; [rewrite <- Ec; apply alloc_cols; [apply Hg|lia]|].
  destruct (nm_back m Hg) as (j & Ej & Eb); [by rewrite Ew|lia|].
  unfold ta_restored, ta_to_json, ta_from_json. cbn [ta_matrix ta_weights ta_pol]. rewrite Ej. cbn [obind]. eexists. split; [reflexivity|].
  rewrite (at_reparse _ _ j) by reflexivity. cbn [obind]. rewrite Eb. cbn [obind].
  rewrite (at_reparse _ _ (JArr (map JUns ws))) by reflexivity. cbn [obind]. rewrite weights_back by done. cbn. by destruct p.
Qed.
Lemma bitwise_restored w (R : rnd) n nf m ws p : (w = 8 \/ w = 16 \/ w = 32) -> bw_struct R w n nf m p -> (0 < n)%nat -> Z.of_nat (2 * n) <= int_max ->
  Forall (fun w => 0 <= w < 4294967296) ws -> Z.of_nat nf <= int_max /\ ta_restored bitwise_codec (TA m ws p).
Proof.
  intros Hw ((Hg & Hb & Hr1 & Hr2) & Ew & Er & Ec & _ & Hrb) Hn Hn2 Hws. cbn [fst snd] in *.
  assert (Z.of_nat nf <= int_max) as Hnf by (rewrite <- Ec; apply alloc_cols; [apply Hg|lia]). split; [done|].
  destruct (nm_back m Hg) as (j & Ej & Eb); [by rewrite Ew|lia|].
  unfold ta_restored, ta_to_json, ta_from_json. cbn [ta_matrix ta_weights ta_pol]. rewrite Ej. cbn [obind]. eexists. split; [reflexivity|].
  rewrite (at_reparse _ _ j) by reflexivity. cbn [obind]. rewrite Eb. cbn [obind].
  rewrite (at_reparse _ _ (JArr (map JUns ws))) by reflexivity. cbn [obind]. rewrite weights_back by done. cbn [obind bitwise_codec pc_read pc_write].
  rewrite (at_reparse _ _ (bm_to_json p)) by reflexivity. cbn [obind].
  unfold int_max in *. rewrite bm_back; [done|done|by rewrite Hr2, Ec| |]; lia.
Qed.
