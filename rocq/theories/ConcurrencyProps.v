(** * Concurrent predict calls on estimators a caller can reach. *)
From Verif Require Export ConcurrencyFacts.
From Coq Require Import Permutation.
From stdpp Require Import list.
Local Open Scope Z_scope.

Section Conc.
  Context {R : rnd} (g_ok : eG R -> Prop) (f_ok : eF R -> Prop) (HR : rnd_ok R g_ok f_ok).
  Context (S : sch) (HS : sch_ok S).
  Context (A : algo R) (vw : aview A) (HA : tsetlini_algo R A vw).
  Notation est := (est (a_pol A) (eS S) (eG R) (eF R)).
  Context (a : clf_args) (p : params) (os : list (clf_op A)) (rs : list clf_res) (e : est).
  Context (Hc : clf_created a p) (Hh : clf_history S A vw p os rs e).
  Context (L nf : nat) (Hd : clf_dims_of os rs = Some (L, nf)).
  Notation opl := (clf_opl a).
  Notation n := (L * opl)%nat.
  Notation T := (ca_threshold a).
  Notation tile := (ca_tile a).
  Notation s := (e_ta e).
  Notation fires x := (fires_pruned vw nf s x).

  (** a complete order of evaluation *)
  Definition whole_order (o : list nat) : Prop := Permutation o (seq 0 (length (ca_out (e_cache e)))).

  Lemma conc_setup : exists weighted maxw, weights_ok weighted maxw n (ta_weights s) /\ 1 <= maxw <= int_max /\
    Nat.even opl = true /\ Z.of_nat n <= int_max /\ 0 <= T /\ (1 <= L)%nat /\
    length (ca_out (e_cache e)) = n /\ length (ca_sum (e_cache e)) = L /\
    (forall sch c, run_predicts S A e sch c = run_threads A s L opl T tile sch c) /\
    (forall x, v_ok vw nf x -> asks A s L opl tile (fires x) x) /\
    (forall x, v_phys vw x -> v_ok vw nf x -> exists e', clf_predict1 S A e x =
       Ret (Right (Z.of_nat (argmax (totals A s L opl T (fires x)))), e')) /\ (0 < n)%nat.
  Proof.
    destruct (clf_hist_laws g_ok f_ok HR A vw HA a (cc_valid _ _ Hc)) as (I & E1n & E1p & E2 & Lw).
    pose proof (clf_history_at g_ok f_ok HR S HS A vw _ _ I E1n E1p E2 Lw a p os rs e Hc eq_refl eq_refl Hh) as Hat.
    rewrite Hd in Hat. destruct Hat as [Hf _]. specialize (Lw True True). pose proof Hf as (Ha & Hdm & Hco).
    destruct (clf_n_bound a L nf Ha _ Hdm) as [Hn Hn0]. destruct (clf_opl_facts a Ha) as (_ & _ & Hev & Hopl).
    exists (ca_weighted a), (ca_max_weight a).
    pose proof (P_opl a Ha _ (cd_has _ _ _ _ Hdm)) as Eopl.
    destruct Hco as [Hau Hwe Hle _ _ _ _]. cbn [fst snd] in *. destruct Hle as (_ & Lo & Lsum).
    assert (1 <= ca_max_weight a <= int_max /\ 0 <= T /\ tile_known tile) as (Hmw & HT & Htile).
    { destruct Ha as [[] [] _]. unfold is_int in *. split; [lia|]. split; [lia|done]. }
    split_and!; try done.
    - by destruct Hmw.
    - by destruct Hmw.
    - by destruct Hdm.
    - intros sch c. unfold run_predicts. destruct Hdm as [[] El Ef _ _]. rewrite El. rewrite Eopl.
      repeat match goal with H : P_tile _ = Ret _ |- _ => rewrite H | H : P_threshold _ = Ret _ |- _ => rewrite H end.
      cbn [obind]. by rewrite !Nat2Z.id.
    - intros x Hx j Hj. destruct s as [m w0 pl]. cbn [ta_matrix ta_pol] in *.
      exact (l_pruned _ _ _ _ _ _ _ _ _ _ _ Lw n nf m pl w0 x j (tile_of tile) Hau Hx Hj (tile_of_pos _ Htile)).
    - intros x Hp Hx. destruct (clf_predict1_spec g_ok f_ok S HS A vw True True _ _ I E1n E1p E2 Lw a L nf Ha e Hf x Hp) as [(_ & c & E & _)|(Hno & _)]; [|done].
      eexists. exact E.
  Qed.

  Lemma whole_lt o : whole_order o -> forall j, j ∈ o <-> (j < n)%nat.
  Proof.
    destruct conc_setup as (wd & mw & _ & _ & _ & _ & _ & _ & Lo & _). intros Ho j. unfold whole_order in Ho. rewrite Lo in Ho.
    rewrite Ho. rewrite elem_of_seq. lia.
  Qed.
  Lemma whole_all o : whole_order o -> Forall (fun j => (j < n)%nat) o.
  Proof. intros Ho. apply Forall_forall. intros j Hj. by apply (whole_lt o Ho). Qed.
  Lemma whole_nodup o : whole_order o -> NoDup o.
  Proof. unfold whole_order. intros Ho. rewrite Ho. apply NoDup_seq. Qed.

  (** calls with acceptable samples, each with a complete order *)
  Definition fine_calls (calls : list (a_smp A * list nat)) : Prop :=
    Forall (fun '(x, o) => v_phys vw x /\ v_ok vw nf x /\ whole_order o) calls.

  Lemma start_safe calls : fine_calls calls -> forall w, all_safe A s L opl tile w (start_predicts S A e calls).
  Proof.
    intros Hf w. destruct conc_setup as (wd & mw & _ & _ & _ & _ & _ & _ & Lo & Lsum & _ & Hasks & _).
    split; [by split|]. cbn [start_predicts fst snd]. intros k x t Ek.
    rewrite list_lookup_fmap in Ek. apply fmap_Some in Ek as ([y o] & Ek & Ex). injection Ex as -> ->.
    eapply Forall_lookup_1 in Hf; [|exact Ek]. cbn in Hf. destruct Hf as (_ & Hx & Ho). split; [eexists; by apply Hasks|].
    cbn [safe]. split; [by apply whole_all|]. intros j Hj Hnj. exfalso. apply Hnj. by apply (whole_lt o Ho).
  Qed.

  (** ** any schedule *)
  Lemma conc_any calls schedule : fine_calls calls -> exists c, run_predicts S A e schedule (start_predicts S A e calls) = Ret c /\
    forall k l, returned c k = Some l -> 0 <= l < Z.of_nat L.
  Proof.
    intros Hf. destruct conc_setup as (wd & mw & Hw & Hm & He & Hn & HT & HL & Lo & Lsum & Er & Hasks & _). rewrite Er.
    destruct (any_safe A s L opl T tile wd mw Hw Hm He Hn HT HL schedule _ (start_safe calls Hf mw)) as (c & E & [_ Hs] & _).
    exists c. split; [exact E|]. intros k l Hr. unfold returned in Hr. destruct (c.1 !! k) as [[x t]|] eqn:Ek; [|done].
    destruct t; try done. injection Hr as ->. destruct (Hs _ _ _ Ek) as [_ H]. exact H.
  Qed.

  (** ** an undisturbed call *)
  Lemma conc_alone calls schedule c k x o : fine_calls calls -> calls !! k = Some (x, o) -> k ∉ schedule ->
    run_predicts S A e schedule (start_predicts S A e calls) = Ret c ->
    exists steps c' l e', run_predicts S A e (replicate steps k) c = Ret c' /\ returned c' k = Some l /\
      clf_predict1 S A e x = Ret (Right l, e') /\ (forall k', k' <> k -> c'.1 !! k' = c.1 !! k').
  Proof.
    intros Hf Ek Hk E. destruct conc_setup as (wd & mw & Hw & Hm & He & Hn & HT & HL & Lo & Lsum & Er & Hasks & Hpred & _).
    rewrite Er in E.
    destruct (any_safe A s L opl T tile wd mw Hw Hm He Hn HT HL schedule _ (start_safe calls Hf mw)) as (c0 & E0 & Hs & Hsame & _).
    rewrite E in E0. injection E0 as <-. pose proof Hf as Hf'. eapply Forall_lookup_1 in Hf'; [|exact Ek]. cbn in Hf'. destruct Hf' as (Hp & Hx & Ho).
    destruct (Hpred x Hp Hx) as (e' & Epr).
    destruct c as [ts m]. cbn [fst snd] in *.
    assert (ts !! k = Some (x, InClauses o)) as Et.
    { rewrite (Hsame k Hk). cbn [start_predicts fst]. rewrite list_lookup_fmap, Ek. done. }
    destruct (alone_aux A s L opl T tile wd mw Hw Hm He Hn HT HL (fires x) x (left L opl (InClauses o)) ts m k (InClauses o) Et) as (m' & Ea & _).
    - apply Hs.
    - cbn [heading]. split; [by apply whole_all|]. intros j Hj Hnj. exfalso. apply Hnj. by apply (whole_lt o Ho).
    - cbn [clauses_left]. intros j Hj. apply Hasks; [done|]. by apply (whole_lt o Ho).
    - done.
    - eexists _, _, _, _. rewrite Er. split; [exact Ea|]. split.
      { unfold returned. cbn [fst]. rewrite list_lookup_insert by (by eapply lookup_lt_Some). done. }
      split; [exact Epr|]. intros k' Hne. cbn [fst]. by rewrite list_lookup_insert_ne.
  Qed.

  (** ** one call after the other *)
  Lemma conc_sequential calls ks : fine_calls calls -> NoDup ks -> Forall (fun k => (k < length calls)%nat) ks ->
    exists blocks c, map snd blocks = ks /\ run_predicts S A e (concat (map (fun '(steps, k) => replicate steps k) blocks)) (start_predicts S A e calls) = Ret c /\
      forall k x o, k ∈ ks -> calls !! k = Some (x, o) -> exists l e', returned c k = Some l /\ clf_predict1 S A e x = Ret (Right l, e').
  Proof.
    intros Hf. destruct conc_setup as (_ & _ & _ & _ & _ & _ & _ & _ & _ & _ & Er & _).
    induction ks as [|k ks IH] using rev_ind; intros Hnd Hlt.
    - exists [], (start_predicts S A e calls). split; [done|]. split; [by rewrite Er|]. intros k x o Hk. by apply elem_of_nil in Hk.
    - apply NoDup_app in Hnd as (Hnd & Hdis & _). apply Forall_app in Hlt as [Hlt Hk]. rewrite Forall_singleton in Hk.
      destruct (IH Hnd Hlt) as (blocks & c & Eb & Ec & Hres).
      destruct (lookup_lt_is_Some_2 calls k Hk) as [[x o] Ek].
      assert (k ∉ concat (map (fun '(steps, k0) => replicate steps k0) blocks)) as Hnk.
      { intros Hin. apply elem_of_list_In, in_concat in Hin as (b & Hb & Hin). apply in_map_iff in Hb as ([st k0] & <- & Hb).
        apply repeat_spec in Hin || (apply elem_of_list_In, elem_of_replicate in Hin as [Hin _]). subst k0.
        apply (Hdis k); [|by left]. rewrite <- Eb. apply elem_of_list_In. apply (in_map snd) in Hb. exact Hb. }
      destruct (conc_alone calls _ c k x o Hf Ek Hnk Ec) as (steps & c' & l & e' & E' & Hr & Hp & Hfr).
      exists (blocks ++ [(steps, k)]), c'. split; [by rewrite map_app, Eb|]. split.
      { rewrite Er in *. rewrite map_app, concat_app. cbn [map concat]. rewrite app_nil_r. unfold run_threads in *. rewrite ofold_app, Ec. exact E'. }
      intros k' x' o' Hin Ek'. apply elem_of_app in Hin as [Hin|Hin].
      + assert (k' <> k) as Hne. { intros ->. apply (Hdis k Hin). by left. }
        destruct (Hres k' x' o' Hin Ek') as (l' & e'' & Hr' & Hp'). exists l', e''. split; [|done]. unfold returned. by rewrite Hfr.
      + apply elem_of_list_singleton in Hin. subst k'. rewrite Ek in Ek'. injection Ek' as <- <-. eauto.
  Qed.

  (** ** the same question from all threads *)
  Lemma conc_same calls x schedule c : fine_calls calls -> Forall (fun '(y, _) => y = x) calls ->
    run_predicts S A e schedule (start_predicts S A e calls) = Ret c ->
    forall k l, returned c k = Some l -> exists e', clf_predict1 S A e x = Ret (Right l, e').
  Proof.
    intros Hf Hx E k l Hr. destruct conc_setup as (wd & mw & Hw & Hm & He & Hn & HT & HL & Lo & Lsum & Er & Hasks & Hpred & _).
    rewrite Er in E. destruct calls as [|[y o] calls'] eqn:Ecalls.
    { assert (forall sch (m : shared), run_threads A s L opl T tile sch ([], m) = Ret ([], m)) as Hnil.
      { intros sch m. unfold run_threads. induction sch as [|z sch IH]; [done|]. cbn [ofold]. unfold kstep at 1. cbn [fst]. by destruct z. }
      unfold start_predicts in E. cbn [map] in E. rewrite Hnil in E. injection E as <-. unfold returned in Hr. cbn in Hr. done. }
    assert (y = x) as -> by (apply Forall_cons in Hx as [H _]; exact H).
    assert (v_phys vw x /\ v_ok vw nf x) as [Hp Hok] by (apply Forall_cons in Hf as [H _]; destruct H as (? & ? & _); done).
    rewrite <- Ecalls in *. clear Ecalls.
    destruct (same_outputs A s L opl T tile wd mw Hw Hm He Hn HT HL (fires x) schedule (start_predicts S A e calls)) as (c' & E' & _ & Hall).
    { split; [by split|]. cbn [start_predicts fst snd]. intros k' z t Ek.
      rewrite list_lookup_fmap in Ek. apply fmap_Some in Ek as ([y' o'] & Ek & Ex). injection Ex as -> ->.
      eapply Forall_lookup_1 in Hx; [|exact Ek]. cbn in Hx. subst y'.
      eapply Forall_lookup_1 in Hf; [|exact Ek]. cbn in Hf. destruct Hf as (_ & _ & Ho).
      split; [by apply Hasks|]. split.
      - cbn [heading]. split; [by apply whole_all|]. intros j Hj Hnj. exfalso. apply Hnj. by apply (whole_lt o' Ho).
      - cbn [clauses_left]. intros j Hj. by apply (whole_lt o' Ho). }
    rewrite E in E'. injection E' as <-. unfold returned in Hr. destruct (c.1 !! k) as [[z t]|] eqn:Ek; [|done].
    destruct t; try done. injection Hr as ->. destruct (Hall _ _ _ Ek) as (_ & H & _). cbn [heading] in H. subst l. by apply Hpred.
  Qed.

  (** ** bad interleavings *)
  Section Bad.
    Context (x1 x2 : a_smp A) (Hp1 : v_phys vw x1) (Hp2 : v_phys vw x2) (Hx1 : v_ok vw nf x1) (Hx2 : v_ok vw nf x2).
    (** label of a mixture of the clause outputs for the two samples *)
    Lemma conc_mixture o (sel : nat -> bool) : whole_order o -> exists schedule c,
      run_predicts S A e schedule (start_predicts S A e [(x1, o); (x2, o)]) = Ret c /\
      returned c 0 = Some (Z.of_nat (argmax (map (label_vote opl T (fun j => if sel j then fires x1 j else fires x2 j) (ta_weights s)) (seq 0 L)))).
    Proof.
      intros Ho. destruct conc_setup as (wd & mw & Hw & Hm & He & Hn & HT & HL & Lo & Lsum & Er & Hasks & Hpred & _).
      destruct (lockstep_run A s L opl T tile wd mw Hw Hm He Hn HT HL sel (fires x1) (fires x2) x1 x2 (Hasks _ Hx1) (Hasks _ Hx2) o
        (Shared (ca_out (e_cache e)) (ca_sum (e_cache e)))) as (m & E & Hs & Hg).
      { by apply whole_all. } { by apply whole_nodup. } { by split. }
      { intros j Hj Hnj. exfalso. apply Hnj. by apply (whole_lt o Ho). }
      destruct (alone_aux A s L opl T tile wd mw Hw Hm He Hn HT HL (mixed sel (fires x1) (fires x2)) x1 (left L opl (InClauses []))
        [(x1, InClauses []); (x2, InClauses [])] m 0 (InClauses [])) as (m' & Ea & _); try done.
      { cbn [clauses_left]. by intros j Hj%elem_of_nil. }
      exists (lockstep sel o ++ replicate (left L opl (InClauses [])) 0%nat). eexists. split.
      - rewrite Er. unfold start_predicts. cbn [map]. unfold run_threads in *. rewrite ofold_app, E. exact Ea.
      - reflexivity.
    Qed.
    (** the other thread's answer, whatever the two orders *)
    Lemma conc_swapped o1 o2 : whole_order o1 -> whole_order o2 -> exists schedule c l e',
      run_predicts S A e schedule (start_predicts S A e [(x1, o1); (x2, o2)]) = Ret c /\ returned c 0 = Some l /\
      clf_predict1 S A e x2 = Ret (Right l, e').
    Proof.
      intros Ho1 Ho2. destruct conc_setup as (wd & mw & Hw & Hm & He & Hn & HT & HL & Lo & Lsum & Er & Hasks & Hpred & _).
      destruct (Hpred x2 Hp2 Hx2) as (e' & Epr).
      set (m0 := Shared (ca_out (e_cache e)) (ca_sum (e_cache e))).
      destruct (clauses_run A s L opl T tile wd mw Hw Hm He Hn HT HL (fires x1) x1 (Hasks _ Hx1) o1 [(x1, InClauses o1); (x2, InClauses o2)] 0 m0)
        as (m1 & E1 & Hs1 & _ & _); [done|by apply whole_all|by split|].
      destruct (clauses_run A s L opl T tile wd mw Hw Hm He Hn HT HL (fires x2) x2 (Hasks _ Hx2) o2 (<[0%nat := (x1, InClauses [])]> [(x1, InClauses o1); (x2, InClauses o2)]) 1 m1)
        as (m2 & E2 & Hs2 & _ & Hg); [done|by apply whole_all|done|].
      destruct (alone_aux A s L opl T tile wd mw Hw Hm He Hn HT HL (fires x2) x1 (left L opl (InClauses []))
        [(x1, InClauses []); (x2, InClauses [])] m2 0 (InClauses [])) as (m' & Ea & _); try done.
      { cbn [heading]. split; [done|]. intros j Hj _. apply Hg. by apply (whole_lt o2 Ho2). }
      { cbn [clauses_left]. by intros j Hj%elem_of_nil. }
      exists (replicate (length o1) 0%nat ++ replicate (length o2) 1%nat ++ replicate (left L opl (InClauses [])) 0%nat). eexists _, _, _. split.
      - rewrite Er. unfold start_predicts. cbn [map]. fold m0. unfold run_threads in *. rewrite ofold_app, E1. cbn [obind]. rewrite ofold_app, E2. exact Ea.
      - split; [reflexivity|exact Epr].
    Qed.
    (** a data race *)
    Lemma conc_race o1 o2 : whole_order o1 -> whole_order o2 -> exists schedule c,
      run_predicts S A e schedule (start_predicts S A e [(x1, o1); (x2, o2)]) = Ret c /\ racing c.
    Proof.
      intros Ho1 Ho2. destruct conc_setup as (wd & mw & Hw & Hm & He & Hn & HT & HL & Lo & Lsum & Er & Hasks & Hpred & Hn0).
      destruct o1 as [|j o1'] eqn:Eo1. { exfalso. apply (whole_lt _ Ho1) in Hn0. by apply elem_of_nil in Hn0. }
      rewrite <- Eo1 in *. assert (j < n)%nat as Hj. { apply (whole_lt _ Ho1). rewrite Eo1. by left. }
      pose proof Hj as Hj2. apply (whole_lt _ Ho2) in Hj2. apply elem_of_list_split in Hj2 as (l1 & l2 & Eo2).
      assert (forall l1 l2 m, Forall (fun j => (j < n)%nat) l1 -> sized L opl m ->
        exists m', run_threads A s L opl T tile (replicate (length l1) 1%nat) ([(x1, InClauses o1); (x2, InClauses (l1 ++ l2))], m)
          = Ret ([(x1, InClauses o1); (x2, InClauses l2)], m')) as Hgo.
      { clear l1 l2 Eo2. induction l1 as [|i l1 IH]; intros l2 m Hl [Lo' Ls']; [by exists m|]. apply Forall_cons in Hl as [Hi Hl].
        destruct (IH l2 (Shared (<[i:=b2z (fires x2 i)]> (sh_out m)) (sh_sum m)) Hl) as (m' & E). { split; cbn; [by rewrite insert_length|done]. }
        exists m'. cbn [length replicate]. unfold run_threads in *. cbn [ofold]. unfold kstep at 1. cbn [fst snd lookup list_lookup app pstep].
        rewrite (Hasks _ Hx2 i Hi). cbn [obind]. rewrite vset_ret by lia. cbn [obind insert list_insert]. exact E. }
      destruct (Hgo l1 (j :: l2) (Shared (ca_out (e_cache e)) (ca_sum (e_cache e)))) as (m' & E).
      { apply Forall_forall. intros i Hi. apply (whole_lt _ Ho2). rewrite Eo2. apply elem_of_app. by left. } { by split. }
      exists (replicate (length l1) 1%nat). eexists. split.
      { rewrite Er. unfold start_predicts. cbn [map]. rewrite Eo2. exact E. }
      exists 0%nat, 1%nat, x1, x2, (InClauses o1), (InClauses (j :: l2)), (Out j), true, true. cbn [fst snd].
      split_and!; try done; [|cbn; by left|by left]. rewrite Eo1. cbn. by left.
    Qed.
    Lemma conc_read_race o1 o2 : whole_order o1 -> whole_order o2 -> exists schedule c,
      run_predicts S A e schedule (start_predicts S A e [(x1, o1); (x2, o2)]) = Ret c /\ read_racing c.
    Proof.
      intros Ho1 Ho2. destruct conc_setup as (wd & mw & Hw & Hm & He & Hn & HT & HL & Lo & Lsum & Er & Hasks & Hpred & Hn0).
      pose proof Hn0 as Hj2. apply (whole_lt _ Ho2) in Hj2. apply elem_of_list_split in Hj2 as (l1 & l2 & Eo2).
      destruct (clauses_run A s L opl T tile wd mw Hw Hm He Hn HT HL (fires x1) x1 (Hasks _ Hx1) o1 [(x1, InClauses o1); (x2, InClauses o2)] 0
        (Shared (ca_out (e_cache e)) (ca_sum (e_cache e)))) as (m1 & E1 & Hs1 & _ & _); [done|by apply whole_all|by split|].
      assert (forall t l1 l2 m, Forall (fun j => (j < n)%nat) l1 -> sized L opl m ->
        exists m', run_threads A s L opl T tile (replicate (length l1) 1%nat) ([(x1, t); (x2, InClauses (l1 ++ l2))], m)
          = Ret ([(x1, t); (x2, InClauses l2)], m')) as Hgo.
      { clear l1 l2 Eo2. intros t. induction l1 as [|i l1 IH]; intros l2 m Hl [Lo' Ls']; [by exists m|]. apply Forall_cons in Hl as [Hi Hl].
        destruct (IH l2 (Shared (<[i:=b2z (fires x2 i)]> (sh_out m)) (sh_sum m)) Hl) as (m' & E). { split; cbn; [by rewrite insert_length|done]. }
        exists m'. cbn [length replicate]. unfold run_threads in *. cbn [ofold]. unfold kstep at 1. cbn [fst snd lookup list_lookup app pstep].
        rewrite (Hasks _ Hx2 i Hi). cbn [obind]. rewrite vset_ret by lia. cbn [obind insert list_insert]. exact E. }
      assert (exists q, enter_label L opl 0 = InVotes 0 (0%nat :: q) 0) as (q & Eq).
      { unfold enter_label. rewrite (proj2 (Nat.ltb_lt 0 L)) by lia. destruct opl as [|q]; [clear -Hn0; lia|]. by exists (seq 1 q). }
      destruct (Hgo (enter_label L opl 0) l1 (0%nat :: l2) m1) as (m' & E); [|exact Hs1|].
      { apply Forall_forall. intros i Hi. apply (whole_lt _ Ho2). rewrite Eo2. apply elem_of_app. by left. }
      exists (replicate (length o1) 0%nat ++ 0%nat :: replicate (length l1) 1%nat). eexists. split.
      - rewrite Er. unfold start_predicts. cbn [map]. unfold run_threads in *. rewrite ofold_app, E1. cbn [obind ofold]. unfold kstep at 1.
        cbn [fst snd lookup list_lookup insert list_insert pstep obind]. rewrite Eo2. exact E.
      - exists 0%nat, 1%nat, x1, x2, (enter_label L opl 0), (InClauses (0%nat :: l2)), (Out 0). rewrite Eq. cbn [fst snd accesses].
        split_and!; try done; by left.
    Qed.
  End Bad.
End Conc.
