(** * Concurrent predict calls on regressors a caller can reach. *)
From Verif Require Export ConcurrencyRegFacts.
From Coq Require Import Permutation.
From stdpp Require Import list.
Local Open Scope Z_scope.

Section Conc.
  Context {R : rnd} (g_ok : eG R -> Prop) (f_ok : eF R -> Prop) (HR : rnd_ok R g_ok f_ok).
  Context (S : sch) (HS : sch_ok S).
  Context (A : algo R) (vw : aview A) (HA : tsetlini_algo R A vw).
  Notation est := (est (a_pol A) (eS S) (eG R) (eF R)).
  Context (a : reg_args) (p : params) (os : list (reg_op A)) (rs : list reg_res) (e : est).
  Context (Hc : reg_created a p) (Hh : reg_history S A vw p os rs e).
  Context (nf : nat) (Hd : reg_dims_of os rs = Some nf).
  Notation n := (reg_n a).
  Notation T := (ra_threshold a).
  Notation tile := (ra_tile a).
  Notation s := (e_ta e).
  Notation fires x := (fires_pruned vw nf s x).

  (** a complete order of evaluation *)
  Definition reg_whole_order (o : list nat) : Prop := Permutation o (seq 0 (length (ca_out (e_cache e)))).

  Lemma rconc_setup : exists weighted maxw, weights_ok weighted maxw n (ta_weights s) /\ 1 <= maxw <= int_max /\
    Z.of_nat n <= int_max /\ 0 <= T /\ length (ca_out (e_cache e)) = n /\
    (forall sch c, reg_run_predicts S A e sch c = rrun_threads A s T tile sch c) /\
    (forall x, v_ok vw nf x -> rasks A s n tile (fires x) x) /\
    (forall x, v_phys vw x -> v_ok vw nf x -> exists e', reg_predict1 S A e x = Ret (Right (response A s n T (fires x)), e')) /\
    (0 < n)%nat.
  Proof.
    pose proof (rc_valid _ _ Hc) as Ha.
    destruct (reg_hist_laws g_ok f_ok HR A vw HA a Ha) as (I & E1n & E1p & E2 & Lw).
    pose proof (reg_history_at g_ok f_ok HR S HS A vw _ _ I E1n E1p E2 Lw a p os rs e Hc eq_refl eq_refl Hh) as Hat.
    rewrite Hd in Hat. destruct Hat as [Hf _]. specialize (Lw True True). pose proof Hf as (_ & Hdm & Hco).
    pose proof (reg_n_bound a Ha) as Hb. destruct (reg_n_facts a Ha) as (_ & _ & Hn1).
    exists (ra_weighted a), (ra_max_weight a).
    destruct Hco as [Hau Hwe Hle _ _ _]. cbn [fst snd] in *. destruct Hle as (Lo & _).
    assert (1 <= ra_max_weight a <= int_max /\ 0 <= T /\ tile_known tile) as (Hmw & HT & Htile).
    { destruct Ha as [[] [] _]. unfold is_int in *. split; [lia|]. split; [lia|done]. }
    split_and!; try done.
    - by destruct Hmw.
    - by destruct Hmw.
    - intros sch c. unfold reg_run_predicts. destruct Hdm as [[] _].
      repeat match goal with H : P_tile _ = Ret _ |- _ => rewrite H | H : P_threshold _ = Ret _ |- _ => rewrite H end.
      done.
    - intros x Hx j Hj. destruct s as [m w0 pl]. cbn [ta_matrix ta_pol] in *.
      exact (l_pruned _ _ _ _ _ _ _ _ _ _ _ Lw n nf m pl w0 x j (tile_of tile) Hau Hx Hj (tile_of_pos _ Htile)).
    - intros x Hp Hx. destruct (reg_predict1_spec g_ok S HS A vw True True _ _ I E1n E1p E2 Lw a nf Ha e Hf x Hp) as [(_ & c & E & _)|(Hno & _)]; [|done].
      eexists. exact E.
  Qed.

  Lemma rwhole_lt o : reg_whole_order o -> forall j, j ∈ o <-> (j < n)%nat.
  Proof.
    destruct rconc_setup as (wd & mw & _ & _ & _ & _ & Lo & _). intros Ho j. unfold reg_whole_order in Ho. rewrite Lo in Ho.
    rewrite Ho. rewrite elem_of_seq. lia.
  Qed.
  Lemma rwhole_all o : reg_whole_order o -> Forall (fun j => (j < n)%nat) o.
  Proof. intros Ho. apply Forall_forall. intros j Hj. by apply (rwhole_lt o Ho). Qed.
  Lemma rwhole_nodup o : reg_whole_order o -> NoDup o.
  Proof. unfold reg_whole_order. intros Ho. rewrite Ho. apply NoDup_seq. Qed.

  (** calls with acceptable samples, each with a complete order *)
  Definition reg_fine_calls (calls : list (a_smp A * list nat)) : Prop :=
    Forall (fun '(x, o) => v_phys vw x /\ v_ok vw nf x /\ reg_whole_order o) calls.

  Lemma rstart_safe calls : reg_fine_calls calls -> forall w, rall_safe A s n T tile w (reg_start_predicts S A e calls).
  Proof.
    intros Hf w. destruct rconc_setup as (wd & mw & _ & _ & _ & _ & Lo & _ & Hasks & _).
    split; [done|]. cbn [reg_start_predicts fst snd]. intros k x t Ek.
    rewrite list_lookup_fmap in Ek. apply fmap_Some in Ek as ([y o] & Ek & Ex). injection Ex as -> ->.
    eapply Forall_lookup_1 in Hf; [|exact Ek]. cbn in Hf. destruct Hf as (_ & Hx & Ho). split; [eexists; by apply Hasks|].
    cbn [rsafe]. split; [by apply rwhole_all|]. intros j Hj Hnj. exfalso. apply Hnj. by apply (rwhole_lt o Ho).
  Qed.

  (** ** any schedule *)
  Lemma rconc_any calls schedule : reg_fine_calls calls -> exists c, reg_run_predicts S A e schedule (reg_start_predicts S A e calls) = Ret c /\
    forall k l, reg_returned c k = Some l -> 0 <= l <= T.
  Proof.
    intros Hf. destruct rconc_setup as (wd & mw & Hw & Hm & Hn & HT & Lo & Er & Hasks & _). rewrite Er.
    destruct (rany_safe A s n T tile wd mw Hw Hm Hn HT schedule _ (rstart_safe calls Hf mw)) as (c & E & [_ Hs] & _).
    exists c. split; [exact E|]. intros k l Hr. unfold reg_returned in Hr. destruct (c.1 !! k) as [[x t]|] eqn:Ek; [|done].
    destruct t; try done. injection Hr as ->. destruct (Hs _ _ _ Ek) as [_ H]. exact H.
  Qed.

  (** ** an undisturbed call *)
  Lemma rconc_alone calls schedule c k x o : reg_fine_calls calls -> calls !! k = Some (x, o) -> k ∉ schedule ->
    reg_run_predicts S A e schedule (reg_start_predicts S A e calls) = Ret c ->
    exists steps c' l e', reg_run_predicts S A e (replicate steps k) c = Ret c' /\ reg_returned c' k = Some l /\
      reg_predict1 S A e x = Ret (Right l, e') /\ (forall k', k' <> k -> c'.1 !! k' = c.1 !! k').
  Proof.
    intros Hf Ek Hk E. destruct rconc_setup as (wd & mw & Hw & Hm & Hn & HT & Lo & Er & Hasks & Hpred & _).
    rewrite Er in E.
    destruct (rany_safe A s n T tile wd mw Hw Hm Hn HT schedule _ (rstart_safe calls Hf mw)) as (c0 & E0 & Hs & Hsame & _).
    rewrite E in E0. injection E0 as <-. pose proof Hf as Hf'. eapply Forall_lookup_1 in Hf'; [|exact Ek]. cbn in Hf'. destruct Hf' as (Hp & Hx & Ho).
    destruct (Hpred x Hp Hx) as (e' & Epr).
    destruct c as [ts m]. cbn [fst snd] in *.
    assert (ts !! k = Some (x, RInClauses o)) as Et.
    { rewrite (Hsame k Hk). cbn [reg_start_predicts fst]. rewrite list_lookup_fmap, Ek. done. }
    destruct (ralone A s n T tile wd mw Hw Hm Hn HT (fires x) x (rleft n (RInClauses o)) ts m k (RInClauses o) Et) as (m' & Ea & _).
    - apply Hs.
    - cbn [rheading]. split; [by apply rwhole_all|]. intros j Hj Hnj. exfalso. apply Hnj. by apply (rwhole_lt o Ho).
    - cbn [rclauses_left]. intros j Hj. apply Hasks; [done|]. by apply (rwhole_lt o Ho).
    - done.
    - eexists _, _, _, _. rewrite Er. split; [exact Ea|]. split.
      { unfold reg_returned. cbn [fst]. rewrite list_lookup_insert by (by eapply lookup_lt_Some). done. }
      split; [exact Epr|]. intros k' Hne. cbn [fst]. by rewrite list_lookup_insert_ne.
  Qed.

  (** ** one call after the other *)
  Lemma rconc_sequential calls ks : reg_fine_calls calls -> NoDup ks -> Forall (fun k => (k < length calls)%nat) ks ->
    exists blocks c, map snd blocks = ks /\ reg_run_predicts S A e (concat (map (fun '(steps, k) => replicate steps k) blocks)) (reg_start_predicts S A e calls) = Ret c /\
      forall k x o, k ∈ ks -> calls !! k = Some (x, o) -> exists l e', reg_returned c k = Some l /\ reg_predict1 S A e x = Ret (Right l, e').
  Proof.
    intros Hf. destruct rconc_setup as (_ & _ & _ & _ & _ & _ & _ & Er & _).
    induction ks as [|k ks IH] using rev_ind; intros Hnd Hlt.
    - exists [], (reg_start_predicts S A e calls). split; [done|]. split; [by rewrite Er|]. intros k x o Hk. by apply elem_of_nil in Hk.
    - apply NoDup_app in Hnd as (Hnd & Hdis & _). apply Forall_app in Hlt as [Hlt Hk]. rewrite Forall_singleton in Hk.
      destruct (IH Hnd Hlt) as (blocks & c & Eb & Ec & Hres).
      destruct (lookup_lt_is_Some_2 calls k Hk) as [[x o] Ek].
      assert (k ∉ concat (map (fun '(steps, k0) => replicate steps k0) blocks)) as Hnk.
      { intros Hin. apply elem_of_list_In, in_concat in Hin as (b & Hb & Hin). apply in_map_iff in Hb as ([st k0] & <- & Hb).
        apply repeat_spec in Hin || (apply elem_of_list_In, elem_of_replicate in Hin as [Hin _]). subst k0.
        apply (Hdis k); [|by left]. rewrite <- Eb. apply elem_of_list_In. apply (in_map snd) in Hb. exact Hb. }
      destruct (rconc_alone calls _ c k x o Hf Ek Hnk Ec) as (steps & c' & l & e' & E' & Hr & Hp & Hfr).
      exists (blocks ++ [(steps, k)]), c'. split; [by rewrite map_app, Eb|]. split.
      { rewrite Er in *. rewrite map_app, concat_app. cbn [map concat]. rewrite app_nil_r. unfold rrun_threads in *. rewrite ofold_app, Ec. exact E'. }
      intros k' x' o' Hin Ek'. apply elem_of_app in Hin as [Hin|Hin].
      + assert (k' <> k) as Hne. { intros ->. apply (Hdis k Hin). by left. }
        destruct (Hres k' x' o' Hin Ek') as (l' & e'' & Hr' & Hp'). exists l', e''. split; [|done]. unfold reg_returned. by rewrite Hfr.
      + apply elem_of_list_singleton in Hin. subst k'. rewrite Ek in Ek'. injection Ek' as <- <-. eauto.
  Qed.

  (** ** the same question from all threads *)
  Lemma rconc_same calls x schedule c : reg_fine_calls calls -> Forall (fun '(y, _) => y = x) calls ->
    reg_run_predicts S A e schedule (reg_start_predicts S A e calls) = Ret c ->
    forall k l, reg_returned c k = Some l -> exists e', reg_predict1 S A e x = Ret (Right l, e').
  Proof.
    intros Hf Hx E k l Hr. destruct rconc_setup as (wd & mw & Hw & Hm & Hn & HT & Lo & Er & Hasks & Hpred & _).
    rewrite Er in E. destruct calls as [|[y o] calls'] eqn:Ecalls.
    { assert (forall sch (m : list Z), rrun_threads A s T tile sch ([], m) = Ret ([], m)) as Hnil.
      { intros sch m. unfold rrun_threads. induction sch as [|z sch IH]; [done|]. cbn [ofold]. unfold rkstep at 1. cbn [fst]. by destruct z. }
      unfold reg_start_predicts in E. cbn [map] in E. rewrite Hnil in E. injection E as <-. unfold reg_returned in Hr. cbn in Hr. done. }
    assert (y = x) as -> by (apply Forall_cons in Hx as [H _]; exact H).
    assert (v_phys vw x /\ v_ok vw nf x) as [Hp Hok] by (apply Forall_cons in Hf as [H _]; destruct H as (? & ? & _); done).
    rewrite <- Ecalls in *. clear Ecalls.
    destruct (rsame_outputs A s n T tile wd mw Hw Hm Hn HT (fires x) schedule (reg_start_predicts S A e calls)) as (c' & E' & _ & Hall).
    { split; [done|]. cbn [reg_start_predicts fst snd]. intros k' z t Ek.
      rewrite list_lookup_fmap in Ek. apply fmap_Some in Ek as ([y' o'] & Ek & Ex). injection Ex as -> ->.
      eapply Forall_lookup_1 in Hx; [|exact Ek]. cbn in Hx. subst y'.
      eapply Forall_lookup_1 in Hf; [|exact Ek]. cbn in Hf. destruct Hf as (_ & _ & Ho).
      split; [by apply Hasks|]. split.
      - cbn [rheading]. split; [by apply rwhole_all|]. intros j Hj Hnj. exfalso. apply Hnj. by apply (rwhole_lt o' Ho).
      - cbn [rclauses_left]. intros j Hj. by apply (rwhole_lt o' Ho). }
    rewrite E in E'. injection E' as <-. unfold reg_returned in Hr. destruct (c.1 !! k) as [[z t]|] eqn:Ek; [|done].
    destruct t; try done. injection Hr as ->. destruct (Hall _ _ _ Ek) as (_ & H & _). cbn [rheading] in H. subst l. by apply Hpred.
  Qed.

  (** ** bad interleavings *)
  Section Bad.
    Context (x1 x2 : a_smp A) (Hp1 : v_phys vw x1) (Hp2 : v_phys vw x2) (Hx1 : v_ok vw nf x1) (Hx2 : v_ok vw nf x2).
    (** label of a mixture of the clause outputs for the two samples *)
    Lemma rconc_mixture o (sel : nat -> bool) : reg_whole_order o -> exists schedule c,
      reg_run_predicts S A e schedule (reg_start_predicts S A e [(x1, o); (x2, o)]) = Ret c /\
      reg_returned c 0 = Some (clamp 0 T (total_votes n (fun j => if sel j then fires x1 j else fires x2 j) (weight_of (ta_weights s)))).
    Proof.
      intros Ho. destruct rconc_setup as (wd & mw & Hw & Hm & Hn & HT & Lo & Er & Hasks & Hpred & _).
      destruct (rlockstep_run A s n T tile wd mw Hw Hm Hn HT sel (fires x1) (fires x2) x1 x2 (Hasks _ Hx1) (Hasks _ Hx2) o
        (ca_out (e_cache e))) as (m & E & Hs & Hg).
      { by apply rwhole_all. } { by apply rwhole_nodup. } { done. }
      { intros j Hj Hnj. exfalso. apply Hnj. by apply (rwhole_lt o Ho). }
      destruct (ralone A s n T tile wd mw Hw Hm Hn HT (rmixed sel (fires x1) (fires x2)) x1 (rleft n (RInClauses []))
        [(x1, RInClauses []); (x2, RInClauses [])] m 0 (RInClauses [])) as (m' & Ea & _); try done.
      { cbn [rclauses_left]. by intros j Hj%elem_of_nil. }
      exists (rlockstep sel o ++ replicate (rleft n (RInClauses [])) 0%nat). eexists. split.
      - rewrite Er. unfold reg_start_predicts. cbn [map]. unfold rrun_threads in *. rewrite ofold_app, E. exact Ea.
      - reflexivity.
    Qed.
    (** the other thread's answer, whatever the two orders *)
    Lemma rconc_swapped o1 o2 : reg_whole_order o1 -> reg_whole_order o2 -> exists schedule c l e',
      reg_run_predicts S A e schedule (reg_start_predicts S A e [(x1, o1); (x2, o2)]) = Ret c /\ reg_returned c 0 = Some l /\
      reg_predict1 S A e x2 = Ret (Right l, e').
    Proof.
      intros Ho1 Ho2. destruct rconc_setup as (wd & mw & Hw & Hm & Hn & HT & Lo & Er & Hasks & Hpred & _).
      destruct (Hpred x2 Hp2 Hx2) as (e' & Epr).
      set (m0 := ca_out (e_cache e)).
      destruct (rclauses_run A s n T tile wd mw Hw Hm Hn HT (fires x1) x1 (Hasks _ Hx1) o1 [(x1, RInClauses o1); (x2, RInClauses o2)] 0 m0)
        as (m1 & E1 & Hs1 & _ & _); [done|by apply rwhole_all|done|].
      destruct (rclauses_run A s n T tile wd mw Hw Hm Hn HT (fires x2) x2 (Hasks _ Hx2) o2 (<[0%nat := (x1, RInClauses [])]> [(x1, RInClauses o1); (x2, RInClauses o2)]) 1 m1)
        as (m2 & E2 & Hs2 & _ & Hg); [done|by apply rwhole_all|done|].
      destruct (ralone A s n T tile wd mw Hw Hm Hn HT (fires x2) x1 (rleft n (RInClauses []))
        [(x1, RInClauses []); (x2, RInClauses [])] m2 0 (RInClauses [])) as (m' & Ea & _); try done.
      { cbn [rheading]. split; [done|]. intros j Hj _. apply Hg. by apply (rwhole_lt o2 Ho2). }
      { cbn [rclauses_left]. by intros j Hj%elem_of_nil. }
      exists (replicate (length o1) 0%nat ++ replicate (length o2) 1%nat ++ replicate (rleft n (RInClauses [])) 0%nat). eexists _, _, _. split.
      - rewrite Er. unfold reg_start_predicts. cbn [map]. fold m0. unfold rrun_threads in *. rewrite ofold_app, E1. cbn [obind]. rewrite ofold_app, E2. exact Ea.
      - split; [reflexivity|exact Epr].
    Qed.
    (** a data race *)
    Lemma rconc_race o1 o2 : reg_whole_order o1 -> reg_whole_order o2 -> exists schedule c,
      reg_run_predicts S A e schedule (reg_start_predicts S A e [(x1, o1); (x2, o2)]) = Ret c /\ reg_racing c.
    Proof.
      intros Ho1 Ho2. destruct rconc_setup as (wd & mw & Hw & Hm & Hn & HT & Lo & Er & Hasks & Hpred & Hn0).
      destruct o1 as [|j o1'] eqn:Eo1. { exfalso. apply (rwhole_lt _ Ho1) in Hn0. by apply elem_of_nil in Hn0. }
      rewrite <- Eo1 in *. assert (j < n)%nat as Hj. { apply (rwhole_lt _ Ho1). rewrite Eo1. by left. }
      pose proof Hj as Hj2. apply (rwhole_lt _ Ho2) in Hj2. apply elem_of_list_split in Hj2 as (l1 & l2 & Eo2).
      assert (forall l1 l2 m, Forall (fun j => (j < n)%nat) l1 -> length m = n ->
        exists m', rrun_threads A s T tile (replicate (length l1) 1%nat) ([(x1, RInClauses o1); (x2, RInClauses (l1 ++ l2))], m)
          = Ret ([(x1, RInClauses o1); (x2, RInClauses l2)], m')) as Hgo.
      { clear l1 l2 Eo2. induction l1 as [|i l1 IH]; intros l2 m Hl Lo'; [by exists m|]. apply Forall_cons in Hl as [Hi Hl].
        destruct (IH l2 (<[i:=b2z (fires x2 i)]> m) Hl) as (m' & E). { by rewrite insert_length. }
        exists m'. cbn [length replicate]. unfold rrun_threads in *. cbn [ofold]. unfold rkstep at 1. cbn [fst snd lookup list_lookup app rstep].
        rewrite (Hasks _ Hx2 i Hi). cbn [obind]. rewrite vset_ret by lia. cbn [obind insert list_insert]. exact E. }
      destruct (Hgo l1 (j :: l2) (ca_out (e_cache e))) as (m' & E).
      { apply Forall_forall. intros i Hi. apply (rwhole_lt _ Ho2). rewrite Eo2. apply elem_of_app. by left. } { done. }
      exists (replicate (length l1) 1%nat). eexists. split.
      { rewrite Er. unfold reg_start_predicts. cbn [map]. rewrite Eo2. exact E. }
      exists 0%nat, 1%nat, x1, x2, (RInClauses o1), (RInClauses (j :: l2)), j, true, true. cbn [fst snd].
      split_and!; try done; [|cbn; by left|by left]. rewrite Eo1. cbn. by left.
    Qed.
    Lemma rconc_read_race o1 o2 : reg_whole_order o1 -> reg_whole_order o2 -> exists schedule c,
      reg_run_predicts S A e schedule (reg_start_predicts S A e [(x1, o1); (x2, o2)]) = Ret c /\ reg_read_racing c.
    Proof.
      intros Ho1 Ho2. destruct rconc_setup as (wd & mw & Hw & Hm & Hn & HT & Lo & Er & Hasks & Hpred & Hn0).
      pose proof Hn0 as Hj2. apply (rwhole_lt _ Ho2) in Hj2. apply elem_of_list_split in Hj2 as (l1 & l2 & Eo2).
      destruct (rclauses_run A s n T tile wd mw Hw Hm Hn HT (fires x1) x1 (Hasks _ Hx1) o1 [(x1, RInClauses o1); (x2, RInClauses o2)] 0 (ca_out (e_cache e)))
        as (m1 & E1 & Hs1 & _ & _); [done|by apply rwhole_all|done|].
      assert (forall l1 l2 m, Forall (fun j => (j < n)%nat) l1 -> length m = n ->
        exists m', length m' = n /\ rrun_threads A s T tile (replicate (length l1) 1%nat) ([(x1, RInVotes 0 0); (x2, RInClauses (l1 ++ l2))], m)
          = Ret ([(x1, RInVotes 0 0); (x2, RInClauses l2)], m')) as Hgo.
      { clear l1 l2 Eo2. induction l1 as [|i l1 IH]; intros l2 m Hl Lo'; [by exists m|]. apply Forall_cons in Hl as [Hi Hl].
        destruct (IH l2 (<[i:=b2z (fires x2 i)]> m) Hl) as (m' & Lm & E). { by rewrite insert_length. }
        exists m'. split; [exact Lm|]. cbn [length replicate]. unfold rrun_threads in *. cbn [ofold]. unfold rkstep at 1. cbn [fst snd lookup list_lookup app rstep].
        rewrite (Hasks _ Hx2 i Hi). cbn [obind]. rewrite vset_ret by lia. cbn [obind insert list_insert]. exact E. }
      destruct (Hgo l1 (0%nat :: l2) m1) as (m' & Lm & E); [|exact Hs1|].
      { apply Forall_forall. intros i Hi. apply (rwhole_lt _ Ho2). rewrite Eo2. apply elem_of_app. by left. }
      exists (replicate (length o1) 0%nat ++ 0%nat :: replicate (length l1) 1%nat). eexists. split.
      - rewrite Er. unfold reg_start_predicts. cbn [map]. unfold rrun_threads in *. rewrite ofold_app, E1. cbn [obind ofold]. unfold rkstep at 1.
        cbn [fst snd lookup list_lookup insert list_insert rstep obind]. rewrite Eo2. exact E.
      - exists 0%nat, 1%nat, x1, x2, (RInVotes 0 0), (RInClauses (0%nat :: l2)), 0%nat. cbn [fst snd reg_accesses].
        split_and!; try done; [|by left]. rewrite Lm. apply Nat.ltb_lt in Hn0. rewrite Hn0. by left.
    Qed.
  End Bad.
End Conc.
