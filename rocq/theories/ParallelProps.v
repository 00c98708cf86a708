(** * Parallel clause loops of the estimators. *)
From Verif Require Export HistFacts Parallel.
From Verif Require Import Wp ParallelFacts ParallelBodies InvFacts SimFacts.
From stdpp Require Import list.
Local Open Scope Z_scope.

(** ** Specification *)
(** the two algorithms with their parallel loops *)
Inductive openmp_algo (R : rnd) : forall A : algo R, aview A -> par_algo A -> Prop :=
| openmp_classic : openmp_algo R (classic R) (cl_view R) (classic_par R)
| openmp_bitwise : openmp_algo R (Algo.bitwise R) (bw_view R) (bitwise_par R).

(** a parallel loop over [its] started with memory [m], whatever the team, the distribution of iterations and the interleaving of
    accesses: it has no data race, no access outside the storage, it cannot block or run forever, and if it ends, it ends with
    memory [m'] *)
Definition loop_gives {M} (body : nat -> prog M unit) (its : list nat) (m m' : memory M) : Prop :=
  forall k, (1 <= k)%nat ->
    (exists bound, forall n r, steps body n (start its k m) r -> (n <= bound)%nat) /\
    forall r, reaches body (start its k m) r ->
      ~ races r /\ ~ goes_wrong r /\ (finished r \/ exists r', step body r r') /\ (finished r -> r_mem r = m').

(** ** Proofs *)
Lemma choice_on (P : nat -> nat -> Prop) (l : list nat) : (forall j, j ∈ l -> exists n, P j n) -> exists f, forall j, j ∈ l -> P j (f j).
Proof.
  induction l as [|i l IH]; intros H; [exists (fun _ => 0%nat); intros j Hj; by apply elem_of_nil in Hj|].
  destruct IH as (f & Hf); [intros; apply H; by right|]. destruct (H i) as (n & Hn); [left|].
  exists (fun j => if decide (j = i) then n else f j). intros j Hj. case_decide as Hd; [by subst|].
  apply elem_of_cons in Hj as [->|?]; [done|auto].
Qed.

Lemma clause_loop_inv clause co its co' : clause_loop clause co its = Ret co' -> NoDup its ->
  exists v, (forall j, j ∈ its -> clause j = Ret (v j)) /\ (forall j, j ∈ its -> (j < length co)%nat) /\
    length co' = length co /\ forall i, co' !! i = if decide (i ∈ its) then Some (v i) else co !! i.
Proof.
  intros E Hnd. assert (forall j, j ∈ its -> (j < length co)%nat /\ exists v, clause j = Ret v) as Hj.
  { clear Hnd. unfold clause_loop in E. revert co E. induction its as [|i its IH]; intros co E j Hj; [by apply elem_of_nil in Hj|].
    cbn [ofold] in E. apply obind_ret_inv in E as (co1 & E1 & E). apply obind_ret_inv in E1 as (v & Ev & E1).
    apply vset_inv in E1 as [Hi ->]. apply elem_of_cons in Hj as [->|Hj]; [split; [done|by exists v]|].
    destruct (IH _ E j Hj) as [Hl Hx]. rewrite insert_length in Hl. done. }
  exists (fun j => match clause j with Ret v => v | _ => 0 end).
  assert (forall j, j ∈ its -> clause j = Ret (match clause j with Ret v => v | _ => 0 end)) as Hv.
  { intros j Hin. destruct (Hj j Hin) as (_ & v & ->). done. }
  assert (forall j, j ∈ its -> (j < length co)%nat) as Hl by (intros j Hin; by apply Hj).
  destruct (clause_loop_spec clause _ co its Hv Hl) as (co1 & E1 & Hl1 & H1). rewrite E in E1. injection E1 as <-. done.
Qed.

Section Generic.
  Context {M : machine} (body : nat -> prog M unit) (mk : list Z -> memory M) (ro : cell M -> Prop) (oc : nat -> cell M) (z : val M -> Z) (q : Z -> val M).
  Hypothesis Hro : forall c o o', ro c -> peek M (mk o) c = peek M (mk o') c.
  Hypothesis Hoc : forall j o v, poke M (mk o) (oc j) v = let* o := vset o j (z v) in Ret (mk o).
  Hypothesis Hdis : forall j, ~ ro (oc j).
  Hypothesis Hinj : forall i j, oc i = oc j -> i = j.
  Lemma loop_generic clause out its out' : NoDup its -> clause_loop clause out its = Ret out' ->
    (forall j v, j ∈ its -> clause j = Ret v -> z (q v) = v /\ exists n, will ro oc (mk out) (q v) j n (body j)) ->
    loop_gives body its (mk out) (mk out').
  Proof using Hro Hoc Hdis Hinj.
    intros Hnd E Hb. destruct (clause_loop_inv _ _ _ _ E Hnd) as (v & Hv & Hl & El & Hi).
    destruct (choice_on (fun j n => will ro oc (mk out) (q (v j)) j n (body j)) its) as (cost & Hcost).
    { intros j Hj. by apply (Hb j (v j) Hj), Hv. }
    intros k Hk. split.
    - eexists. intros n r Hs.
      exact (region_bound body mk ro oc (fun j => q (v j)) z cost its out Hro Hoc Hdis Hinj Hcost Hl Hnd n k r Hs).
    - intros r Hr. destruct (region_ok body mk ro oc (fun j => q (v j)) z cost its out Hro Hoc Hdis Hinj Hcost Hl Hnd k r Hk Hr) as (H1 & H2 & H3 & H4).
      split_and!; [done..|]. intros Hf. destruct (H4 Hf) as (o & -> & Lo & Ho). f_equal. apply list_eq. intros i. rewrite Ho, Hi.
      case_decide as Hin; [|done]. f_equal. by apply (Hb i (v i) Hin), Hv.
  Qed.
End Generic.

Section Algos.
  Context {R : rnd} (A : algo R) (vw : aview A) (P : par_algo A) (HP : openmp_algo R A vw P).
  Lemma openmp_tsetlini : tsetlini_algo R A vw.
  Proof using HP. destruct HP; constructor. Qed.

  Lemma bw_clause_bit B X p j v : bw_clause B X p j = Ret v -> Z.of_N (bit v) = v.
  Proof.
    intros E. destruct (pbw_clause_exec bitwise_machine _ _ (BMem X p []) B X p (bfeature_exec X p []) (bpolarity_exec X p []) j v E) as ([] & -> & _); done.
  Qed.
  Lemma bwp_clause_bit B X p j v : bwp_clause B X p j = Ret v -> Z.of_N (bit v) = v.
  Proof.
    intros E. destruct (pbwp_clause_exec bitwise_machine _ _ (BMem X p []) B X p (bfeature_exec X p []) (bpolarity_exec X p []) j v E) as ([] & -> & _); done.
  Qed.

  (** a parallel loop ends with what the same loop gives when its iterations run one after the other *)
  Lemma par_body B x s its out out' : NoDup its -> clause_loop (a_clause A B x s) out its = Ret out' ->
    loop_gives (pa_body P B x) its (pa_mem P x s out) (pa_mem P x s out').
  Proof using HP.
    intros Hnd E. destruct HP.
    - cbn [pa_body pa_mem classic_par]. eapply (loop_generic (M := classic_machine) _ (CMem x (ta_matrix s)) c_ro COutput (fun v => v) (fun v => v));
        [| | | |done|exact E|].
      + intros [] o o' Hc; done.
      + intros; done.
      + intros j H. exact H.
      + intros i j H. by injection H.
      + intros j v Hj Ev. split; [done|]. exact (pcl_will _ _ _ _ _ _ Ev).
    - cbn [pa_body pa_mem bitwise_par]. eapply (loop_generic (M := bitwise_machine) _ (BMem x (ta_pol s)) b_ro BOutput Z.of_N bit);
        [| | | |done|exact E|].
      + intros [] o o' Hc; done.
      + intros; done.
      + intros j H. exact H.
      + intros i j H. by injection H.
      + intros j v Hj Ev. split; [exact (bw_clause_bit _ _ _ _ _ Ev)|]. exact (pbw_will _ _ _ _ _ _ Ev).
  Qed.
  Lemma par_pruned B x s its out out' : NoDup its -> clause_loop (a_clause_pruned A B x s) out its = Ret out' ->
    loop_gives (pa_pruned P B x) its (pa_mem P x s out) (pa_mem P x s out').
  Proof using HP.
    intros Hnd E. destruct HP.
    - cbn [pa_pruned pa_mem classic_par]. eapply (loop_generic (M := classic_machine) _ (CMem x (ta_matrix s)) c_ro COutput (fun v => v) (fun v => v));
        [| | | |done|exact E|].
      + intros [] o o' Hc; done.
      + intros; done.
      + intros j H. exact H.
      + intros i j H. by injection H.
      + intros j v Hj Ev. split; [done|]. exact (pclp_will _ _ _ _ _ _ Ev).
    - cbn [pa_pruned pa_mem bitwise_par]. eapply (loop_generic (M := bitwise_machine) _ (BMem x (ta_pol s)) b_ro BOutput Z.of_N bit);
        [| | | |done|exact E|].
      + intros [] o o' Hc; done.
      + intros; done.
      + intros j H. exact H.
      + intros i j H. by injection H.
      + intros j v Hj Ev. split; [exact (bwp_clause_bit _ _ _ _ _ Ev)|]. exact (pbwp_will _ _ _ _ _ _ Ev).
  Qed.

  (** ** Calls of the model: whatever order the model runs the iterations in *)
  Context (S : sch) (HS : sch_ok S).
  Lemma loop_order clause out o o' out' : o ≡ₚ o' -> NoDup o' -> clause_loop clause out o = Ret out' -> clause_loop clause out o' = Ret out'.
  Proof.
    intros Hp Hnd E. destruct (clause_loop_inv clause out o out' E) as (v & Hv & Hl & El & Hi); [by rewrite Hp|].
    destruct (clause_loop_spec clause v out o') as (out2 & E2 & El2 & Hi2).
    - intros j Hj. apply Hv. by rewrite Hp.
    - intros j Hj. apply Hl. by rewrite Hp.
    - rewrite E2. f_equal. apply list_eq. intros i. rewrite Hi2, Hi. destruct (decide (i ∈ o)) as [H|H].
      + rewrite decide_True; [done|]. by rewrite <- Hp.
      + rewrite decide_False; [done|]. by rewrite <- Hp.
  Qed.
  Lemma call_body x c b e s nj tile c' : calc_clause_output S A x c (Z.of_nat b) (Z.of_nat e) s nj tile = Ret c' ->
    loop_gives (pa_body P (tile_of tile) x) (seq b (e - b)) (pa_mem P x s (ca_out c)) (pa_mem P x s (ca_out c')).
  Proof using HP HS.
    unfold calc_clause_output. rewrite (proj2 (Z.ltb_ge (Z.of_nat b) 0)) by lia. cbn [andb]. rewrite !Nat2Z.id.
    pose proof (HS (ca_sched c) nj b e) as Hp. destruct (sched S (ca_sched c) nj b e) as [o ss]. cbn [fst] in Hp. intros E.
    apply obind_ret_inv in E as (out & E & [= <-]). apply par_body; [apply NoDup_seq|].
    eapply loop_order; [exact Hp|apply NoDup_seq|exact E].
  Qed.
  Lemma call_pruned x c n s nj tile c' : calc_clause_output_pruned S A x c (Z.of_nat n) s nj tile = Ret c' ->
    loop_gives (pa_pruned P (tile_of tile) x) (seq 0 n) (pa_mem P x s (ca_out c)) (pa_mem P x s (ca_out c')).
  Proof using HP HS.
    unfold calc_clause_output_pruned. rewrite !Nat2Z.id.
    pose proof (HS (ca_sched c) nj 0%nat n) as Hp. destruct (sched S (ca_sched c) nj 0 n) as [o ss]. cbn [fst] in Hp. intros E.
    apply obind_ret_inv in E as (out & E & [= <-]). apply par_pruned; [apply NoDup_seq|].
    rewrite Nat.sub_0_r in Hp. eapply loop_order; [exact Hp|apply NoDup_seq|exact E].
  Qed.
End Algos.

(** ** Fitted estimators *)
Section Fitted.
  Context {R : rnd} (g_ok : eG R -> Prop) (f_ok : eF R -> Prop) (HR : rnd_ok R g_ok f_ok).
  Context (S : sch) (HS : sch_ok S).
  Context (A : algo R) (vw : aview A) (P : par_algo A) (HP : openmp_algo R A vw P).
  Notation est := (est (a_pol A) (eS S) (eG R) (eF R)).

  (** outputs of the clauses [its] over old outputs *)
  Definition outputs_over (f : nat -> bool) (b e : nat) (out out' : list Z) : Prop :=
    length out' = length out /\ forall i, out' !! i = if decide (b <= i < e)%nat then Some (b2z (f i)) else out !! i.

  Section Laws.
    Context (w N : Z) (I : nat -> nat -> nmatrix -> a_pol A -> Prop).
    Context (E1n : nat -> coin_tosser -> a_smp A -> nat -> amp A -> amp A -> Prop).
    Context (E1p : bool -> nat -> coin_tosser -> a_smp A -> nat -> amp A -> amp A -> Prop).
    Context (E2 : nat -> a_smp A -> nat -> amp A -> amp A -> Prop).
    Context (Lw : laws A g_ok vw True True w N I E1n E1p E2).
    Context (n nf : nat) (s : tastate (a_pol A)) (HI : I n nf (ta_matrix s) (ta_pol s)).
    Context (x : a_smp A) (Hx : v_ok vw nf x) (B : nat) (HB : (0 < B)%nat) (out : list Z) (Hout : length out = n).
    Lemma fitted_pruned : loop_gives (pa_pruned P B x) (seq 0 n) (pa_mem P x s out) (pa_mem P x s (map (fun i => b2z (fires_pruned vw nf s x i)) (seq 0 n))).
    Proof using HP Lw HI Hx HB Hout.
      eapply par_pruned; [done|apply NoDup_seq|].
      destruct (clause_loop_spec (a_clause_pruned A B x s) (fun i => b2z (fires_pruned vw nf s x i)) out (seq 0 n)) as (out' & E & El & Hi).
      - intros j Hj%elem_of_seq. destruct s as [m ws p]. apply (l_pruned _ _ _ _ _ _ _ _ _ _ _ Lw n); auto. lia.
      - intros j Hj%elem_of_seq. lia.
      - rewrite E. f_equal. apply list_eq. intros i. rewrite Hi, list_lookup_fmap. destruct (decide (i ∈ seq 0 n)) as [H|H].
        + apply elem_of_seq in H. rewrite lookup_seq_lt by lia. done.
        + rewrite elem_of_seq in H. rewrite lookup_ge_None_2 by lia. rewrite lookup_ge_None_2; [done|]. rewrite seq_length. lia.
    Qed.
    Lemma fitted_body b e : (e <= n)%nat -> exists out', outputs_over (fires vw nf s x) b e out out' /\
      loop_gives (pa_body P B x) (seq b (e - b)) (pa_mem P x s out) (pa_mem P x s out').
    Proof using HP Lw HI Hx HB Hout.
      intros He. destruct (clause_loop_spec (a_clause A B x s) (fun i => b2z (fires vw nf s x i)) out (seq b (e - b))) as (out' & E & El & Hi).
      - intros j Hj%elem_of_seq. destruct s as [m ws p]. apply (l_clause _ _ _ _ _ _ _ _ _ _ _ Lw n); auto. lia.
      - intros j Hj%elem_of_seq. lia.
      - exists out'. split; [|by eapply par_body; [done|apply NoDup_seq|]]. split; [done|]. intros i. rewrite Hi.
        destruct (decide (i ∈ seq b (e - b))) as [H|H]; rewrite elem_of_seq in H; [rewrite decide_True by lia|rewrite decide_False by lia]; done.
    Qed.
  End Laws.

  Section Clf.
    Context (a : clf_args) (p : params) (os : list (clf_op A)) (rs : list clf_res) (e : est).
    Context (Hc : clf_created a p) (Hh : clf_history S A vw p os rs e) (L nf : nat) (Hd : clf_dims_of os rs = Some (L, nf)).
    Context (x : a_smp A) (Hx : v_ok vw nf x) (B : nat) (HB : (0 < B)%nat) (out : list Z) (Hout : length out = length (ca_out (e_cache e))).
    Lemma clf_loops :
      loop_gives (pa_pruned P B x) (seq 0 (length out)) (pa_mem P x (e_ta e) out)
        (pa_mem P x (e_ta e) (map (fun i => b2z (fires_pruned vw nf (e_ta e) x i)) (seq 0 (length out)))) /\
      forall b e1, (e1 <= length out)%nat -> exists out', outputs_over (fires vw nf (e_ta e) x) b e1 out out' /\
        loop_gives (pa_body P B x) (seq b (e1 - b)) (pa_mem P x (e_ta e) out) (pa_mem P x (e_ta e) out').
    Proof using HR HS HP Hc Hh Hd Hx HB Hout.
      pose proof (openmp_tsetlini A vw P HP) as HA.
      destruct (clf_hist_laws g_ok f_ok HR A vw HA a (cc_valid _ _ Hc)) as (I & E1n & E1p & E2 & Lw).
      pose proof (clf_history_at g_ok f_ok HR S HS A vw _ _ I E1n E1p E2 Lw a p os rs e Hc eq_refl eq_refl Hh) as Hat.
      rewrite Hd in Hat. destruct Hat as [Hf _]. specialize (Lw True True). destruct Hf as (Ha & Hdm & Hco).
      destruct Hco as [Hau Hwe Hle _ _ _ _]. destruct Hle as (_ & Lo & _). assert (length out = (L * clf_opl a)%nat) as El by (rewrite Hout; exact Lo).
      split; [rewrite El; by eapply fitted_pruned|]. intros b e1 He. eapply fitted_body; try done. by rewrite <- El.
    Qed.
  End Clf.
  Section Reg.
    Context (a : reg_args) (p : params) (os : list (reg_op A)) (rs : list reg_res) (e : est).
    Context (Hc : reg_created a p) (Hh : reg_history S A vw p os rs e) (nf : nat) (Hd : reg_dims_of os rs = Some nf).
    Context (x : a_smp A) (Hx : v_ok vw nf x) (B : nat) (HB : (0 < B)%nat) (out : list Z) (Hout : length out = length (ca_out (e_cache e))).
    Lemma reg_loops :
      loop_gives (pa_pruned P B x) (seq 0 (length out)) (pa_mem P x (e_ta e) out)
        (pa_mem P x (e_ta e) (map (fun i => b2z (fires_pruned vw nf (e_ta e) x i)) (seq 0 (length out)))) /\
      forall b e1, (e1 <= length out)%nat -> exists out', outputs_over (fires vw nf (e_ta e) x) b e1 out out' /\
        loop_gives (pa_body P B x) (seq b (e1 - b)) (pa_mem P x (e_ta e) out) (pa_mem P x (e_ta e) out').
    Proof using HR HS HP Hc Hh Hd Hx HB Hout.
      pose proof (openmp_tsetlini A vw P HP) as HA.
      destruct (reg_hist_laws g_ok f_ok HR A vw HA a (rc_valid _ _ Hc)) as (I & E1n & E1p & E2 & Lw).
      pose proof (reg_history_at g_ok f_ok HR S HS A vw _ _ I E1n E1p E2 Lw a p os rs e Hc eq_refl eq_refl Hh) as Hat.
      rewrite Hd in Hat. destruct Hat as [Hf _]. specialize (Lw True True). destruct Hf as (Ha & Hdm & Hco).
      destruct Hco as [Hau Hwe Hle _ _ _]. destruct Hle as (Lo & _). assert (length out = reg_n a) as El by (rewrite Hout; exact Lo).
      split; [rewrite El; by eapply fitted_pruned|]. intros b e1 He. eapply fitted_body; try done. by rewrite <- El.
    Qed.
  End Reg.
End Fitted.
