(** * Clause loops under any schedule, vote sums, first maximum. *)
From Verif Require Export Laws ParamFacts.
Local Open Scope Z_scope.

(** ** The clause loop *)
Lemma clause_loop_spec clause (v : nat -> Z) co order :
  (forall j, j ∈ order -> clause j = Ret (v j)) -> (forall j, j ∈ order -> (j < length co)%nat) ->
  exists co', clause_loop clause co order = Ret co' /\ length co' = length co /\
    forall i, co' !! i = if decide (i ∈ order) then Some (v i) else co !! i.
Proof.
  unfold clause_loop. revert co. induction order as [|j order IH]; intros co Hc Hl; cbn [ofold].
  - exists co. split; [done|]. split; [done|]. intros i. rewrite decide_False; [done|]. apply not_elem_of_nil.
  - rewrite Hc by left. cbn [obind]. rewrite vset_ret by (apply Hl; left). cbn [obind].
    destruct (IH (<[j := v j]> co)) as (co' & E & El & Hi).
    + intros; apply Hc; by right.
    + intros. rewrite insert_length. apply Hl; by right.
    + exists co'. split; [done|]. split; [by rewrite El, insert_length|]. intros i. rewrite Hi.
      destruct (decide (i ∈ order)) as [Hin|Hin].
      * rewrite decide_True; [done|by right].
      * destruct (decide (i = j)) as [->|Hne].
        -- rewrite decide_True by left. apply list_lookup_insert. apply Hl; left.
        -- rewrite decide_False; [by rewrite list_lookup_insert_ne|].
           intros [->|?]%elem_of_cons; done.
Qed.
Lemma clause_loop_length clause co order co' : clause_loop clause co order = Ret co' -> length co' = length co.
Proof.
  unfold clause_loop. revert co. induction order as [|j order IH]; intros co; cbn [ofold]; [by intros [= <-]|].
  intros H. apply obind_ret_inv in H as (co1 & E1 & E2). apply obind_ret_inv in E1 as (x & _ & E1).
  apply vset_inv in E1 as [_ ->]. apply IH in E2. by rewrite insert_length in E2.
Qed.
Lemma map_seq_ext {T} (l : list T) n (f : nat -> T) : length l = n -> (forall i, (i < n)%nat -> l !! i = Some (f i)) ->
  l = map f (seq 0 n).
Proof.
  intros El H. apply list_eq. intros i. destruct (decide (i < n)%nat) as [Hi|Hi].
  - rewrite H by done. change (map f (seq 0 n)) with (f <$> seq 0 n). rewrite list_lookup_fmap, lookup_seq_lt by done. done.
  - rewrite lookup_ge_None_2 by lia. symmetry. apply lookup_ge_None_2. rewrite map_length, seq_length. lia.
Qed.
Lemma map_seq_lookup {T} n (f : nat -> T) i : (i < n)%nat -> map f (seq 0 n) !! i = Some (f i).
Proof. intros. change (map f (seq 0 n)) with (f <$> seq 0 n). rewrite list_lookup_fmap, lookup_seq_lt by done. done. Qed.

(** ** Votes *)
Definition weights_ok (weighted : bool) (maxw : Z) (n : nat) (ws : list Z) : Prop :=
  if weighted then length ws = n /\ Forall (fun w => 0 <= w /\ 1 + w <= maxw) ws else ws = [].

Lemma weight_of_range weighted maxw n ws j : weights_ok weighted maxw n ws -> 1 <= maxw ->
  0 <= weight_of ws j /\ 1 + weight_of ws j <= maxw.
Proof.
  unfold weights_ok, weight_of. intros H Hm. destruct weighted.
  - destruct H as [_ H]. destruct (ws !! j) eqn:E; simpl; [|lia]. by eapply Forall_lookup_1 in H.
  - subst. simpl. lia.
Qed.

Lemma signed_votes_bound k fires weight M : 0 <= M -> (forall j, (j < k)%nat -> 0 <= weight j /\ 1 + weight j <= M) ->
  - (Z.of_nat k * M) <= signed_votes k fires weight <= Z.of_nat k * M.
Proof.
  intros HM. induction k as [|k IH]; intros H; cbn [signed_votes]; [lia|].
  specialize (IH ltac:(intros; apply H; lia)). specialize (H k ltac:(lia)). rewrite Nat2Z.inj_succ, Z.mul_succ_l.
  destruct (fires k), (Nat.even k); lia.
Qed.
Lemma total_votes_bound k fires weight M : 0 <= M -> (forall j, (j < k)%nat -> 0 <= weight j /\ 1 + weight j <= M) ->
  0 <= total_votes k fires weight <= Z.of_nat k * M.
Proof.
  intros HM. induction k as [|k IH]; intros H; cbn [total_votes]; [lia|].
  specialize (IH ltac:(intros; apply H; lia)). specialize (H k ltac:(lia)). rewrite Nat2Z.inj_succ, Z.mul_succ_l.
  destruct (fires k); lia.
Qed.
Lemma signed_votes_ext k f f' w w' : (forall j, (j < k)%nat -> f j = f' j /\ w j = w' j) ->
  signed_votes k f w = signed_votes k f' w'.
Proof.
  induction k as [|k IH]; intros H; cbn [signed_votes]; [done|]. rewrite IH by (intros; apply H; lia).
  destruct (H k ltac:(lia)) as [-> ->]. done.
Qed.
Lemma total_votes_ext k f f' w w' : (forall j, (j < k)%nat -> f j = f' j /\ w j = w' j) ->
  total_votes k f w = total_votes k f' w'.
Proof.
  induction k as [|k IH]; intros H; cbn [total_votes]; [done|]. rewrite IH by (intros; apply H; lia).
  destruct (H k ltac:(lia)) as [-> ->]. done.
Qed.
Lemma clampZ_clamp v lo hi : lo <= hi -> clampZ v lo hi = clamp lo hi v.
Proof. unfold clampZ, clamp. intros. destruct (Z.ltb_spec v lo), (Z.ltb_spec hi v); lia. Qed.
Lemma clamp_range lo hi v : lo <= hi -> lo <= clamp lo hi v <= hi.
Proof. unfold clamp. lia. Qed.

(** the loop of sum_up_label_votes *)
Lemma label_sum_loop weighted maxw n co ws b k (fires : nat -> bool) :
  weights_ok weighted maxw n ws -> 1 <= maxw -> Nat.even b = true -> (b + k <= n)%nat ->
  Z.of_nat k * maxw <= 9223372036854775807 ->
  (forall j, (j < k)%nat -> co !! (b + j)%nat = Some (b2z (fires j))) ->
  (if negb (Nat.eqb (length ws) 0) then
     ofold (seq b k) 0 (fun oidx rv =>
       let* val := vget co oidx in
       let* w := vget ws oidx in
       ci64 (rv + (if Nat.even oidx then val * (1 + w) else - val * (1 + w))))
   else
     ofold (seq b k) 0 (fun oidx rv =>
       let* val := vget co oidx in
       ci64 (rv + (if Nat.even oidx then val else - val))))
  = Ret (signed_votes k fires (fun j => weight_of ws (b + j))).
Proof.
  intros Hw Hm Hb Hbn Hk Hco.
  assert (forall j, Nat.even (b + j) = Nat.even j) as Hev.
  { intros j. rewrite Nat.even_add, Hb. by destruct (Nat.even j). }
  assert (forall body : nat -> Z -> outcome Z,
    (forall j rv, (j < k)%nat -> body (b + j)%nat rv =
      ci64 (rv + (if fires j then (if Nat.even j then 1 + weight_of ws (b + j) else - (1 + weight_of ws (b + j))) else 0))) ->
    ofold (seq b k) 0 body = Ret (signed_votes k fires (fun j => weight_of ws (b + j)))) as Hloop.
  { intros body Hbody. destruct (ofor_inv (fun i acc => acc = signed_votes (i - b) fires (fun j => weight_of ws (b + j))) b k 0 body)
      as (r & E & Hr).
    - by rewrite Nat.sub_diag.
    - intros i s' Hi ->. set (j := (i - b)%nat). pose proof (fun rv => Hbody j rv ltac:(lia)) as Hbody'.
      replace (b + j)%nat with i in Hbody' by lia. rewrite Hbody'. clear Hbody'.
      replace (i + 1 - b)%nat with (S j) by lia. cbn [signed_votes]. replace i with (b + j)%nat by lia.
      eexists. split; [|done]. apply ci64_ret.
      pose proof (signed_votes_bound (S j) fires (fun j => weight_of ws (b + j)) maxw ltac:(lia)) as HB.
      cbn [signed_votes] in HB. feed specialize HB; [intros; by eapply weight_of_range|].
      assert (Z.of_nat (S j) * maxw <= Z.of_nat k * maxw) by (apply Z.mul_le_mono_nonneg_r; lia). lia.
    - unfold ofor in E. rewrite E, Hr. by replace (b + k - b)%nat with k by lia. }
  destruct (Nat.eqb_spec (length ws) 0) as [E0|E0]; cbn [negb]; apply Hloop; intros j rv Hj.
  - rewrite (vget_ret _ _ _ (Hco j Hj)). cbn [obind]. apply length_zero_iff_nil in E0. subst ws.
    cbn [weight_of default lookup list_lookup]. rewrite Hev. f_equal. f_equal. unfold weight_of. cbn.
    destruct (fires j), (Nat.even j); done.
  - rewrite (vget_ret _ _ _ (Hco j Hj)). cbn [obind]. unfold weights_ok in Hw. destruct weighted; [|by subst].
    destruct Hw as [El _]. destruct (vget_ret_lt ws (b + j)) as (wj & Ew & ->); [lia|]. cbn [obind].
    unfold weight_of. rewrite Ew, Hev. cbn [default]. f_equal. f_equal. destruct (fires j), (Nat.even j); cbn [b2z]; simpl; lia.
Qed.

(** sum_up_label_votes *)
Lemma sum_label_spec weighted maxw (L opl l : nat) T co ws ls (fires : nat -> bool) :
  weights_ok weighted maxw (L * opl) ws -> 1 <= maxw <= int_max -> Nat.even opl = true -> (l < L)%nat ->
  Z.of_nat (L * opl) <= int_max -> 0 <= T -> length ls = L ->
  (forall j, (j < opl)%nat -> co !! (l * opl + j)%nat = Some (b2z (fires j))) ->
  sum_up_label_votes co ws ls (Z.of_nat l) (Z.of_nat opl) T =
    Ret (<[l := clamp (- T) T (signed_votes opl fires (fun j => weight_of ws (l * opl + j)))]> ls).
Proof.
  intros Hw Hm He Hl Hn HT Hls Hco. unfold sum_up_label_votes, clause_range.
  assert (l * opl + opl <= L * opl)%nat by nia. unfold int_max in *.
  rewrite ci32_ret by (unfold int_min, int_max; lia). cbn [obind].
  rewrite ci32_ret by (unfold int_min, int_max; lia). cbn [obind]. unfold int_range.
  rewrite (proj2 (Z.ltb_ge (Z.of_nat l * Z.of_nat opl) 0)) by lia. cbn [andb obind].
  replace (Z.to_nat (Z.of_nat l * Z.of_nat opl)) with (l * opl)%nat by lia.
  replace (Z.to_nat (Z.of_nat l * Z.of_nat opl + Z.of_nat opl - Z.of_nat l * Z.of_nat opl)) with opl by lia.
  rewrite (label_sum_loop weighted maxw (L * opl) co ws (l * opl) opl fires);
    [|done|lia|by rewrite Nat.even_mul, He, orb_true_r|lia| |done].
  - cbn [obind]. unfold vsetZ. rewrite (proj2 (Z.ltb_ge (Z.of_nat l) 0)) by lia. rewrite Nat2Z.id, vset_ret by lia.
    rewrite clampZ_clamp by lia. done.
  - transitivity (2147483647 * 2147483647); [|lia]. apply Z.mul_le_mono_nonneg; lia.
Qed.

(** sum_up_all_label_votes *)
Lemma sum_all_spec weighted maxw (L opl : nat) T co ws ls (fires : nat -> bool) :
  weights_ok weighted maxw (L * opl) ws -> 1 <= maxw <= int_max -> Nat.even opl = true ->
  Z.of_nat (L * opl) <= int_max -> 0 <= T -> length ls = L ->
  (forall j, (j < L * opl)%nat -> co !! j = Some (b2z (fires j))) ->
  sum_up_all_label_votes co ws ls (Z.of_nat L) (Z.of_nat opl) T =
    Ret (map (fun l => clamp (- T) T (signed_votes opl (fun j => fires (l * opl + j)%nat) (fun j => weight_of ws (l * opl + j))))
             (seq 0 L)).
Proof.
  intros Hw Hm He Hn HT Hls Hco. unfold sum_up_all_label_votes, int_range. rewrite Z.ltb_irrefl. cbn [andb obind].
  rewrite Z.sub_0_r, Nat2Z.id. change (Z.to_nat 0) with 0%nat.
  set (F := fun l => clamp (- T) T (signed_votes opl (fun j => fires (l * opl + j)%nat) (fun j => weight_of ws (l * opl + j)))).
  destruct (ofor_inv (fun i (s : list Z) => length s = L /\ forall k, (k < i)%nat -> s !! k = Some (F k)) 0 L ls
    (fun l ls => sum_up_label_votes co ws ls (Z.of_nat l) (Z.of_nat opl) T)) as (r & E & El & Hr).
  - split; [done|]. intros; lia.
  - intros i s Hi [Es Hs]. rewrite (sum_label_spec weighted maxw L opl i T co ws s (fun j => fires (i * opl + j)%nat));
      try done; try lia.
    + eexists. split; [done|]. split; [by rewrite insert_length|]. intros k Hk.
      destruct (decide (k = i)) as [->|Hne]; [by rewrite list_lookup_insert by lia|].
      rewrite list_lookup_insert_ne by done. apply Hs. lia.
    + intros j Hj. apply Hco. nia.
  - unfold ofor in E. rewrite E. f_equal. by apply map_seq_ext.
Qed.
Lemma sum_label_length co ws ls l opl T ls' : sum_up_label_votes co ws ls l opl T = Ret ls' -> length ls' = length ls.
Proof.
  unfold sum_up_label_votes. intros H. apply obind_ret_inv in H as ([b e] & _ & H).
  apply obind_ret_inv in H as (ixs & _ & H). apply obind_ret_inv in H as (rv & _ & H).
  unfold vsetZ in H. destruct (_ <? _); [done|]. apply vset_inv in H as [_ ->]. by rewrite insert_length.
Qed.
Lemma sum_all_length co ws ls L opl T ls' : sum_up_all_label_votes co ws ls L opl T = Ret ls' -> length ls' = length ls.
Proof.
  unfold sum_up_all_label_votes. intros H. apply obind_ret_inv in H as (ixs & _ & H).
  eapply (ofold_pres (fun s => length s = length ls)) in H; [done|done|].
  intros i s1 s2 _ E1 E2. apply sum_label_length in E2. congruence.
Qed.

(** sum_up_regressor_votes *)
Lemma sum_reg_spec weighted maxw (n : nat) T co ws (fires : nat -> bool) :
  weights_ok weighted maxw n ws -> 1 <= maxw <= int_max -> Z.of_nat n <= int_max -> 0 <= T ->
  length co = n -> (forall j, (j < n)%nat -> co !! j = Some (b2z (fires j))) ->
  sum_up_regressor_votes co T ws = Ret (clamp 0 T (total_votes n fires (weight_of ws))).
Proof.
  intros Hw Hm Hn HT El Hco. unfold sum_up_regressor_votes.
  assert (forall j, (j <= n)%nat -> 0 <= total_votes j fires (weight_of ws) <= 9223372036854775807) as HB.
  { intros j Hj. pose proof (total_votes_bound j fires (weight_of ws) maxw ltac:(lia)) as HB.
    feed specialize HB; [intros; eapply weight_of_range; [done|lia]|].
    assert (Z.of_nat j * maxw <= 2147483647 * 2147483647); [|lia].
    unfold int_max in *. apply Z.mul_le_mono_nonneg; lia. }
  destruct (Nat.eqb_spec (length ws) 0) as [E0|E0].
  - apply length_zero_iff_nil in E0. subst ws.
    assert (forall pre post, co = pre ++ post ->
      ofold post (total_votes (length pre) fires (weight_of [])) (fun v acc => ci64 (acc + v)) =
      Ret (total_votes n fires (weight_of []))) as Hl.
    { intros pre post. revert pre. induction post as [|v post IH]; intros pre E; cbn [ofold].
      - rewrite app_nil_r in E. subst. done.
      - assert (length pre < n)%nat as Hp by (subst; rewrite app_length; simpl; lia).
        pose proof (Hco (length pre) Hp) as Hv. rewrite E, list_lookup_middle in Hv by done. injection Hv as ->.
        replace (total_votes (length pre) fires (weight_of []) + b2z (fires (length pre)))
          with (total_votes (S (length pre)) fires (weight_of [])).
        + rewrite ci64_ret by (pose proof (HB (S (length pre)) ltac:(lia)); lia). cbn [obind].
          replace (S (length pre)) with (length (pre ++ [b2z (fires (length pre))])) by (rewrite app_length; simpl; lia).
          apply IH. by rewrite <- app_assoc.
        + cbn [total_votes]. unfold weight_of. cbn. by destruct (fires (length pre)). }
    specialize (Hl [] co eq_refl). cbn [length total_votes] in Hl. rewrite Hl. cbn [obind]. by rewrite clampZ_clamp by lia.
  - unfold weights_ok in Hw. destruct weighted; [|by subst]. destruct Hw as [Ew _]. rewrite El.
    destruct (ofor_inv (fun i acc => acc = total_votes i fires (weight_of ws)) 0 n 0
      (fun ix acc => let* v := vget co ix in let* w := vget ws ix in ci64 (acc + v * (1 + w)))) as (r & E & Hr).
    + done.
    + intros i s Hi ->. rewrite (vget_ret _ _ _ (Hco i ltac:(lia))). cbn [obind].
      destruct (vget_ret_lt ws i) as (wi & Ewi & ->); [lia|]. cbn [obind].
      eexists. rewrite Nat.add_1_r. split; [|done].
      replace (total_votes i fires (weight_of ws) + b2z (fires i) * (1 + wi)) with (total_votes (S i) fires (weight_of ws)).
      * apply ci64_ret. pose proof (HB (S i) ltac:(lia)). lia.
      * cbn [total_votes]. unfold weight_of. rewrite Ewi. destruct (fires i); cbn [b2z]; simpl; lia.
    + rewrite E. cbn [obind]. rewrite Hr, clampZ_clamp by lia. done.
Qed.

(** ** First maximum *)
Lemma argmax_from_spec l best bi ix :
  (bi < ix)%nat ->
  let r := argmax_from best bi ix l in
  (r = bi /\ Forall (fun v => v <= best) l) \/
  (exists k v, r = (ix + k)%nat /\ l !! k = Some v /\ best < v /\ Forall (fun u => u <= v) l /\
     (forall i u, (i < k)%nat -> l !! i = Some u -> u < v)).
Proof.
  revert best bi ix. induction l as [|v l IH]; intros best bi ix Hb; cbn [argmax_from].
  { left. split; [done|constructor]. }
  destruct (Z.ltb_spec best v) as [Hlt|Hge].
  - destruct (IH v ix (S ix) ltac:(lia)) as [[E F]|(k & u & E & Ek & Hu & F & Hf)].
    + right. exists 0%nat, v. rewrite E, Nat.add_0_r. split; [done|]. split; [done|]. split; [done|].
      split; [constructor; [lia|done]|]. intros; lia.
    + right. exists (S k), u. rewrite E. split; [lia|]. split; [done|]. split; [lia|].
      split; [constructor; [lia|done]|]. intros [|i] u' Hi Eu; simpl in Eu; [injection Eu as ->; done|]. eapply Hf; [|done]. lia.
  - destruct (IH best bi (S ix) ltac:(lia)) as [[E F]|(k & u & E & Ek & Hu & F & Hf)].
    + left. rewrite E. split; [done|]. by constructor.
    + right. exists (S k), u. rewrite E. split; [lia|]. split; [done|]. split; [lia|].
      split; [constructor; [lia|done]|]. intros [|i] u' Hi Eu; simpl in Eu; [injection Eu as ->; lia|]. eapply Hf; [|done]. lia.
Qed.
(** index of the first maximum of a non-empty list *)
Definition first_max (l : list Z) (r : nat) : Prop :=
  exists v, l !! r = Some v /\ (forall i u, l !! i = Some u -> u <= v) /\ (forall i u, (i < r)%nat -> l !! i = Some u -> u < v).
Lemma argmax_spec l : l <> [] -> first_max l (argmax l).
Proof.
  destruct l as [|v l]; [done|]. intros _. unfold argmax, first_max.
  destruct (argmax_from_spec l v 0 1 ltac:(lia)) as [[E F]|(k & u & E & Ek & Hu & F & Hf)]; rewrite E.
  - exists v. split; [done|]. split; [|intros; lia]. intros [|i] u Eu; simpl in Eu; [injection Eu as ->; lia|].
    by eapply Forall_lookup_1 in F.
  - exists u. split; [done|]. split.
    + intros [|i] u' Eu; simpl in Eu; [injection Eu as ->; lia|]. by eapply Forall_lookup_1 in F.
    + intros [|i] u' Hi Eu; simpl in Eu; [injection Eu as ->; done|]. eapply Hf; [|done]. lia.
Qed.
Lemma first_max_unique l r r' : first_max l r -> first_max l r' -> r = r'.
Proof.
  intros (v & E & H1 & H2) (v' & E' & H1' & H2'). destruct (lt_eq_lt_dec r r') as [[H|H]|H]; [|done|].
  - specialize (H2' _ _ H E). specialize (H1 _ _ E'). lia.
  - specialize (H2 _ _ H E'). specialize (H1' _ _ E). lia.
Qed.
Lemma first_max_lt l r : first_max l r -> (r < length l)%nat.
Proof. intros (v & E & _). by apply lookup_lt_Some in E. Qed.
