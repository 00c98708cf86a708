(** * Exact effect of the sparse Type I feedback (silent clause) of the bitwise algorithm. *)
From Verif Require Export BwFeedbackFacts CtFacts.
Local Open Scope Z_scope.

(** occurrences of [k] *)
Notation occ l k := (count_occ Nat.eq_dec l k).

Lemma occ_snoc l a k : occ (l ++ [a]) k = (occ l k + if Nat.eqb k a then 1 else 0)%nat.
Proof.
  rewrite count_occ_app. simpl. destruct (Nat.eq_dec a k) as [->|Hne]; [by rewrite Nat.eqb_refl|].
  rewrite (proj2 (Nat.eqb_neq k a)) by lia. done.
Qed.

Section Sparse.
  Context (R : rnd) (g_ok : eG R -> Prop) (f_ok : eF R -> Prop) (HR : rnd_ok R g_ok f_ok).

  Lemma draw_mod_spec g n (U V : Prop) : g_ok g -> ((0 < n)%nat \/ U) ->
    wp U V (draw_mod R g n) (fun '(i, g') => (i < n)%nat /\ g_ok g').
  Proof.
    intros Hg Hn. unfold draw_mod. destruct (g_next R g) as [r g'] eqn:E.
    pose proof (g_next_ok R g_ok f_ok HR g Hg) as [Hr Hg']. rewrite E in *. simpl in *.
    destruct (Nat.eqb_spec n 0) as [->|Hne]; simpl; [destruct Hn; [lia|done]|].
    split; [|done]. pose proof (Z.mod_pos_bound r (Z.of_nat n) ltac:(lia)). lia.
  Qed.

  (** features decremented by [l1] (positive automata) and [l2] (negated automata) *)
  Definition decs (N : Z) (j : nat) (l1 l2 : list nat) : nat -> nat -> Z * bool -> Z * bool :=
    on_clause j (fun k v => Nat.iter (occ l1 k) (decf N) v) (fun k v => Nat.iter (occ l2 k) (decf N) v).

  Lemma block1_sparse_spec (U V : Prop) nf hits N j s g :
    bgood s -> nm_cols s.1 = nf -> (2 * j + 1 < nm_rows s.1)%nat -> N <= 2 ^ (nm_w s.1 - 1) -> g_ok g ->
    ((0 < nf)%nat \/ wrap_s 32 hits <= 0 \/ U) ->
    wp U V (block1_sparse R nf hits N j s g) (fun '(s', g') => g_ok g' /\
      exists l1 l2, length l1 = Z.to_nat (wrap_s 32 hits) /\ length l2 = Z.to_nat (wrap_s 32 hits) /\
        Forall (fun k => (k < nf)%nat) l1 /\ Forall (fun k => (k < nf)%nat) l2 /\ bupd (decs N j l1 l2) s s').
  Proof.
    intros Hs Hc Hj HN Hg HU. unfold block1_sparse, int_range.
    change ((0 <? 0) && (0 <? wrap_s 32 hits)) with false. cbn [obind].
    replace (wrap_s 32 hits - 0) with (wrap_s 32 hits) by lia. change (Z.to_nat 0) with 0%nat.
    set (h := Z.to_nat (wrap_s 32 hits)).
    assert ((0 < nf)%nat \/ h = 0%nat \/ U) as HU' by (unfold h; destruct HU as [?|[?|?]]; [auto|right; left; lia|auto]).
    clearbody h. clear HU.
    change (ofold (seq 0 h) ?a ?b) with (ofor 0 h a b).
    eapply wp_mono; [apply (wp_ofor (fun i '(s', g') => g_ok g' /\
      exists l1 l2, length l1 = i /\ length l2 = i /\
        Forall (fun k => (k < nf)%nat) l1 /\ Forall (fun k => (k < nf)%nat) l2 /\ bupd (decs N j l1 l2) s s'))|].
    - split; [done|]. exists [], []. split; [done|]. split; [done|]. split; [constructor|]. split; [constructor|].
      eapply bupd_ext; [by apply bupd_refl| |done]. intros. unfold decs, on_clause. cbn.
      by repeat case_match.
    - intros i [s1 g1] Hi (Hg1 & l1 & l2 & L1 & L2 & F1 & F2 & Hup).
      assert ((0 < nf)%nat \/ U) as HU by (destruct HU' as [?|[?|?]]; [auto|lia|auto]).
      apply wp_bind. eapply wp_mono; [by apply draw_mod_spec|]. intros [k1 g2] (Hk1 & Hg2).
      pose proof Hup as (Hgd1 & Hsm1 & _). pose proof Hsm1 as [(Ew1 & Er1 & Ec1) _].
      destruct (bw_dec_cell_spec s1 Hgd1 (2 * j + 0)%nat k1 ltac:(lia) ltac:(lia) N ltac:(rewrite Ew1; lia)) as (s2 & -> & U2). cbn [obind].
      apply wp_bind. eapply wp_mono; [by apply draw_mod_spec|]. intros [k2 g3] (Hk2 & Hg3).
      pose proof U2 as (Hgd2 & Hsm2 & _). pose proof Hsm2 as [(Ew2 & Er2 & Ec2) _].
      destruct (bw_dec_cell_spec s2 Hgd2 (2 * j + 1)%nat k2 ltac:(lia) ltac:(lia) N ltac:(rewrite Ew2, Ew1; lia)) as (s3 & -> & U3). cbn [obind wp].
      split; [done|]. exists (l1 ++ [k1]), (l2 ++ [k2]). rewrite !app_length. simpl.
      split; [lia|]. split; [lia|]. split; [by apply Forall_app_2; [|constructor]|].
      split; [by apply Forall_app_2; [|constructor]|].
      eapply bupd_ext; [eapply bupd_trans; [exact Hup|eapply bupd_trans; [exact U2|exact U3]]| |done].
      intros r c v Hr Hcc _ _. unfold decs, on_clause, at_cell. rewrite Nat.add_0_r.
      destruct (Nat.eqb_spec r (2 * j)) as [->|Hne1].
      + rewrite (proj2 (Nat.eqb_neq (2 * j) (2 * j + 1))) by lia. cbn [andb]. rewrite occ_snoc.
        destruct (Nat.eqb c k1); cbn [andb]; rewrite ?Nat.add_0_r, ?Nat.add_1_r; done.
      + cbn [andb]. destruct (Nat.eqb_spec r (2 * j + 1)) as [->|Hne2]; [|done]. cbn [andb]. rewrite occ_snoc.
        destruct (Nat.eqb c k2); cbn [andb]; rewrite ?Nat.add_0_r, ?Nat.add_1_r; done.
    - intros [s' g'] H. exact H.
  Qed.
End Sparse.
