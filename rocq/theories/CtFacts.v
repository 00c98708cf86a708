(** * Facts about the exact coin tosser (no floating point reasoning here). *)
From Verif Require Export FeedbackFacts.
Local Open Scope Z_scope.

(** number of ones of a 0/1 vector *)
Definition count_ones (l : list Z) : nat := length (filter (fun v => v = 1) l).

Lemma count_ones_replicate n : count_ones (replicate n 0) = 0%nat.
Proof. induction n as [|n IH]; [done|]. unfold count_ones in *. simpl. rewrite filter_cons_False by done. done. Qed.
Lemma count_ones_insert l i :
  (i < length l)%nat -> Forall (fun v => v = 0 \/ v = 1) l ->
  count_ones (<[i := 1]> l) = (count_ones l + (if decide (l !! i = Some 0%Z) then 1 else 0))%nat.
Proof.
  revert i; induction l as [|a l IH]; intros [|i] Hi Hf; simpl in *; try lia; inversion Hf as [|? ? Ha Hf']; subst.
  - unfold count_ones. rewrite filter_cons_True by done. simpl.
    destruct Ha as [-> | ->].
    + rewrite filter_cons_False by done. rewrite decide_True by done. lia.
    + rewrite filter_cons_True by done. rewrite decide_False by done. simpl. lia.
  - specialize (IH i ltac:(lia) Hf'). unfold count_ones in *. destruct Ha as [-> | ->].
    + rewrite !filter_cons_False by done. done.
    + rewrite !filter_cons_True by done. simpl. by rewrite IH.
Qed.
Lemma count_ones_le l : (count_ones l <= length l)%nat.
Proof. unfold count_ones. apply filter_length. Qed.
Lemma count_ones_full l : (forall i, (i < length l)%nat -> l !! i = Some 1) -> count_ones l = length l.
Proof.
  induction l as [|a l IH]; intros H; [done|].
  pose proof (H 0%nat ltac:(simpl; lia)) as [= ->].
  unfold count_ones in *. rewrite filter_cons_True by done. simpl. f_equal. apply IH.
  intros i Hi. apply (H (S i)). simpl. lia.
Qed.

Section Ct.
  Context (R : rnd) (g_ok : eG R -> Prop) (f_ok : eF R -> Prop) (HR : rnd_ok R g_ok f_ok).
  Notation G := (eG R).

  (** the [i]-th value drawn from [g] *)
  Fixpoint g_draw (g : G) (i : nat) : Z :=
    match i with O => (g_next R g).1 | S i => g_draw (g_next R g).2 i end.
  (** the first [tfuel] draws hit every residue modulo n *)
  Definition covers (n : nat) (g : G) : Prop :=
    forall k, (k < n)%nat -> exists i, (i < tfuel R)%nat /\ g_draw g i mod Z.of_nat n = Z.of_nat k.
  Definition fair (n : nat) : Prop := forall g, g_ok g -> covers n g.

  (** possible numbers of hits *)
  Definition ct_hits_le (n : nat) (ct : coin_tosser) : Prop :=
    0 <= ct_floor ct /\ ct_floor ct + (if 0 <? ct_thr ct then 1 else 0) <= Z.of_nat n.
  Definition ct_zero (n : nat) (ct : coin_tosser) : Prop := n = 0%nat -> ct_floor ct = 0 /\ ct_thr ct = 0.
  Definition same_rate (ct ct' : coin_tosser) : Prop :=
    ct_sinv ct' = ct_sinv ct /\ ct_floor ct' = ct_floor ct /\ ct_thr ct' = ct_thr ct.

  Lemma estimate_spec ct g : g_ok g ->
    let '(h, g') := ct_estimate_hits R ct g in
    g_ok g' /\ 0 <= h < 4294967296 /\
    (h = u32 (ct_floor ct) \/ h = u32 (ct_floor ct + 1) /\ 0 < ct_thr ct).
  Proof.
    intros Hg. unfold ct_estimate_hits. destruct (g_next R g) as [r g'] eqn:E.
    pose proof (g_next_ok R g_ok f_ok HR g Hg) as [Hr Hg']. rewrite E in *. simpl in *.
    split; [done|]. split; [apply Z.mod_pos_bound; lia|].
    destruct (Z.ltb_spec r (ct_thr ct)); [right|left; by rewrite Z.add_0_r]. split; [done|lia].
  Qed.

  Section Fill.
    Context (hits : Z) (Hh : 0 <= hits).

    Lemma fill_spec (U V : Prop) fuel it cache g :
      g_ok g -> Forall (fun v => v = 0 \/ v = 1) cache -> it = Z.of_nat (count_ones cache) -> it <= hits ->
      ((0 < length cache)%nat \/ hits = 0 \/ U) ->
      (ct_fill R fuel hits it cache g = OutOfFuel -> V) ->
      wp U V (ct_fill R fuel hits it cache g) (fun '(c, g') =>
        g_ok g' /\ zo_list (length cache) c /\ Z.of_nat (count_ones c) = hits).
    Proof.
      revert it cache g; induction fuel as [|fuel IH]; intros it cache g Hg Hf Hit Hle HU HV; cbn [ct_fill] in *.
      - destruct (Z.ltb_spec it hits); simpl in *; [by apply HV|]. split; [done|]. split; [done|lia].
      - destruct (Z.ltb_spec it hits) as [Hlt|Hge]; simpl in *; [|split; [done|]; split; [done|lia]].
        destruct (g_next R g) as [r g'] eqn:E.
        pose proof (g_next_ok R g_ok f_ok HR g Hg) as [Hr Hg']. rewrite E in *. simpl in *.
        destruct (Z.eqb_spec (Z.of_nat (length cache)) 0) as [E0|E0]; simpl.
        { destruct HU as [?|[?|?]]; [lia|lia|done]. }
        assert (Z.to_nat (r mod Z.of_nat (length cache)) < length cache)%nat as Hix.
        { pose proof (Z.mod_pos_bound r (Z.of_nat (length cache)) ltac:(lia)). lia. }
        set (ix := Z.to_nat (r mod Z.of_nat (length cache))) in *.
        destruct (vget_ret_lt cache ix Hix) as (c & Ec & Evg). rewrite Evg in *. simpl in *.
        rewrite vset_ret in * by done. simpl in *.
        eapply wp_mono; [apply IH|]; auto.
        + by apply Forall_insert; [|auto].
        + rewrite count_ones_insert by done. rewrite Ec.
          pose proof (proj1 (Forall_lookup _ _) Hf _ _ Ec) as [-> | ->].
          * rewrite decide_True by done. change (0 =? 0) with true. lia.
          * rewrite decide_False by done. change (1 =? 0) with false. lia.
        + destruct (c =? 0); lia.
        + rewrite insert_length. left. lia.
        + rewrite insert_length. done.
    Qed.

    (** every drawn cell is 1 when the fuel runs out *)
    Lemma fill_oof fuel it cache g :
      ct_fill R fuel hits it cache g = OutOfFuel -> it = Z.of_nat (count_ones cache) ->
      Forall (fun v => v = 0 \/ v = 1) cache -> (0 < length cache)%nat -> g_ok g ->
      exists c, length c = length cache /\ Z.of_nat (count_ones c) < hits /\
        (forall i, cache !! i = Some 1 -> c !! i = Some 1) /\
        forall i, (i < fuel)%nat -> c !! Z.to_nat (g_draw g i mod Z.of_nat (length cache)) = Some 1.
    Proof.
      revert it cache g; induction fuel as [|fuel IH]; intros it cache g HO Hit Hf Hl Hg; cbn [ct_fill] in HO.
      - destruct (Z.ltb_spec it hits); [|done]. exists cache. split; [done|]. split; [lia|]. split; [done|]. intros; lia.
      - destruct (Z.ltb_spec it hits) as [Hlt|Hge]; [|done].
        destruct (g_next R g) as [r g'] eqn:E.
        pose proof (g_next_ok R g_ok f_ok HR g Hg) as [Hr Hg']. rewrite E in *. simpl in *.
        destruct (Z.eqb_spec (Z.of_nat (length cache)) 0) as [E0|E0]; [lia|].
        assert (Z.to_nat (r mod Z.of_nat (length cache)) < length cache)%nat as Hix.
        { pose proof (Z.mod_pos_bound r (Z.of_nat (length cache)) ltac:(lia)). lia. }
        set (ix := Z.to_nat (r mod Z.of_nat (length cache))) in *.
        destruct (vget_ret_lt cache ix Hix) as (c & Ec & Evg). rewrite Evg in *. simpl in *.
        rewrite vset_ret in * by done. simpl in *.
        apply IH in HO as (c' & Hl' & Hc' & Hk & Hd); auto.
        + rewrite insert_length in *. exists c'. split; [done|]. split; [done|]. split.
          * intros i Hi. apply Hk. destruct (decide (i = ix)) as [->|]; [by rewrite list_lookup_insert|].
            by rewrite list_lookup_insert_ne.
          * intros [|i] Hi; simpl.
            -- rewrite E. simpl. apply Hk. by rewrite list_lookup_insert.
            -- rewrite E. simpl. apply Hd. lia.
        + rewrite count_ones_insert by done. rewrite Ec.
          pose proof (proj1 (Forall_lookup _ _) Hf _ _ Ec) as [-> | ->].
          * rewrite decide_True by done. change (0 =? 0) with true. lia.
          * rewrite decide_False by done. change (1 =? 0) with false. lia.
        + by apply Forall_insert; [|auto].
        + by rewrite insert_length.
    Qed.
  End Fill.

  Lemma fill_terminates hits n g : 0 <= hits <= Z.of_nat n -> g_ok g -> covers n g ->
    ct_fill R (tfuel R) hits 0 (replicate n 0) g <> OutOfFuel.
  Proof.
    intros Hh Hg Hcov HO.
    destruct (decide (n = 0%nat)) as [->|Hn].
    { assert (hits = 0) as -> by lia. destruct (tfuel R); done. }
    apply fill_oof in HO as (c & Hl & Hc & _ & Hd); auto.
    - rewrite replicate_length in *.
      assert (count_ones c = n) as E; [|lia]. rewrite <- Hl. apply count_ones_full. intros i Hi.
      destruct (Hcov i ltac:(lia)) as (k & Hk & Ek). specialize (Hd k Hk). rewrite Ek, Nat2Z.id in Hd. done.
    - by rewrite count_ones_replicate.
    - apply Forall_replicate. auto.
    - rewrite replicate_length. lia.
  Qed.

  Definition ct_len (n : nat) (ct : coin_tosser) : Prop := length (ct_c1 ct) = n /\ length (ct_c2 ct) = n.
  (** condition under which tossing does not fail, relative to what failures are tolerated *)
  Definition ct_ok (U V : Prop) (n : nat) (ct : coin_tosser) : Prop :=
    ct_len n ct /\ (ct_zero n ct \/ U) /\ (ct_hits_le n ct /\ fair n /\ Z.of_nat n < 4294967296 \/ V).

  (** [h] is a possible number of hits of [ct] *)
  Definition hits_of (ct : coin_tosser) (h : Z) : Prop :=
    h = u32 (ct_floor ct) \/ h = u32 (ct_floor ct + 1) /\ 0 < ct_thr ct.

  Lemma tosses_spec (U V : Prop) n ct cache g :
    g_ok g -> length cache = n -> ct_ok U V n ct ->
    wp U V (ct_tosses_ R ct cache g) (fun '(c, g') =>
      g_ok g' /\ zo_list n c /\ hits_of ct (Z.of_nat (count_ones c))).
  Proof.
    intros Hg Hl (_ & HU & HV). unfold ct_tosses_. pose proof (estimate_spec ct g Hg) as He.
    destruct (ct_estimate_hits R ct g) as [h g1]. destruct He as (Hg1 & Hh & Hof). rewrite Hl.
    eapply wp_mono; [eapply (fill_spec h)|].
    - done.
    - apply Forall_replicate. auto.
    - by rewrite count_ones_replicate.
    - lia.
    - rewrite replicate_length. destruct n as [|n]; [|left; lia].
      destruct HU as [HU|HU]; [|by auto]. destruct (HU eq_refl) as [E1 E2]. right; left.
      rewrite E1, E2 in Hof. destruct Hof as [->|[_ ?]]; [done|lia].
    - intros HO. destruct HV as [(Hle & Hfair & Hn)|HV]; [|done]. exfalso.
      eapply fill_terminates; [|done|by apply Hfair|exact HO].
      destruct Hle as [H0 Hle]. destruct Hof as [->|[-> Ht]]; unfold u32; rewrite Z.mod_small;
        repeat match goal with H : context[if ?b then _ else _] |- _ => destruct b eqn:? end; lia.
    - intros [c g'] (H1 & H2 & H3). rewrite replicate_length in H2. split; [done|]. split; [done|]. by rewrite H3.
  Qed.

  (** both toss vectors of one feedback: each has an admissible number of ones *)
  Definition tossed (n : nat) (ct ct' : coin_tosser) : Prop :=
    same_rate ct ct' /\ zo_list n (ct_c1 ct') /\ zo_list n (ct_c2 ct') /\
    hits_of ct (Z.of_nat (count_ones (ct_c1 ct'))) /\ hits_of ct (Z.of_nat (count_ones (ct_c2 ct'))).

  Lemma tosses12_spec (U V : Prop) n ct g :
    g_ok g -> ct_ok U V n ct ->
    wp U V (ct_tosses12 R ct g) (fun '(ct', g') => g_ok g' /\ ct_ok U V n ct' /\ tossed n ct ct').
  Proof.
    intros Hg Hok. pose proof Hok as ([L1 L2] & HU & HV). unfold ct_tosses12, ct_tosses1, ct_tosses2.
    destruct (ltr R).
    - apply wp_bind, wp_bind. eapply wp_mono; [by eapply (tosses_spec U V n)|]. intros [c g1] (Hg1 & Z1 & O1). cbn.
      apply wp_bind. eapply wp_mono; [eapply (tosses_spec U V n); [done|done|]|].
      { pose proof Z1 as [? _]. split; [done|]. split; done. }
      intros [c' g2] (Hg2 & Z2 & O2). cbn. split; [done|]. split; [|done].
      split; [split; [apply Z1|apply Z2]|]. split; done.
    - apply wp_bind, wp_bind. eapply wp_mono; [by eapply (tosses_spec U V n)|]. intros [c g1] (Hg1 & Z1 & O1). cbn.
      apply wp_bind. eapply wp_mono; [eapply (tosses_spec U V n); [done|done|]|].
      { pose proof Z1 as [? _]. split; [done|]. split; done. }
      intros [c' g2] (Hg2 & Z2 & O2). cbn. split; [done|]. split; [|done].
      split; [split; [apply Z2|apply Z1]|]. split; done.
  Qed.
  (** two tossers with the same rate whose scratch vectors have the same size behave alike *)
  Definition ct_sim (ct ct' : coin_tosser) : Prop :=
    same_rate ct ct' /\ length (ct_c1 ct') = length (ct_c1 ct) /\ length (ct_c2 ct') = length (ct_c2 ct).
  Lemma ct_sim_refl ct : ct_sim ct ct. Proof. by repeat split. Qed.
  Lemma tosses_sim ct ct' cache cache' g : same_rate ct ct' -> length cache' = length cache ->
    ct_tosses_ R ct' cache' g = ct_tosses_ R ct cache g.
  Proof. intros (E1 & E2 & E3) El. unfold ct_tosses_, ct_estimate_hits. by rewrite El, E2, E3. Qed.
  Lemma tosses12_sim ct ct' g : ct_sim ct ct' -> ct_tosses12 R ct' g = ct_tosses12 R ct g.
  Proof.
    intros (Hr & L1 & L2). pose proof Hr as (E1 & E2 & E3). unfold ct_tosses12, ct_tosses1, ct_tosses2. destruct (ltr R).
    - rewrite (tosses_sim ct ct' _ _ g Hr L1).
      destruct (ct_tosses_ R ct (ct_c1 ct) g) as [[c g1]| | |]; try done. cbn [obind ct_c1 ct_c2 ct_sinv ct_floor ct_thr].
      rewrite (tosses_sim (CT (ct_sinv ct) (ct_floor ct) (ct_thr ct) c (ct_c2 ct))
        (CT (ct_sinv ct') (ct_floor ct') (ct_thr ct') c (ct_c2 ct')) (ct_c2 ct) (ct_c2 ct') g1); [|done|done].
      by rewrite E1, E2, E3.
    - rewrite (tosses_sim ct ct' _ _ g Hr L2).
      destruct (ct_tosses_ R ct (ct_c2 ct) g) as [[c g1]| | |]; try done. cbn [obind ct_c1 ct_c2 ct_sinv ct_floor ct_thr].
      rewrite (tosses_sim (CT (ct_sinv ct) (ct_floor ct) (ct_thr ct) (ct_c1 ct) c)
        (CT (ct_sinv ct') (ct_floor ct') (ct_thr ct') (ct_c1 ct') c) (ct_c1 ct) (ct_c1 ct') g1); [|done|done].
      by rewrite E1, E2, E3.
  Qed.
  Lemma hits_of_same ct ct' h : same_rate ct ct' -> hits_of ct h -> hits_of ct' h.
  Proof. intros (E1 & E2 & E3). unfold hits_of. by rewrite E2, E3. Qed.
End Ct.
