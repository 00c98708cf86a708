(** * Automata stored in cells of different widths: the two algorithms make the same moves. *)
From Verif Require Export Reach.
From stdpp Require Import list.
Local Open Scope Z_scope.

(** ** Two computations, both of which complete *)
Definition both {A B} (P : A -> B -> Prop) (o1 : outcome A) (o2 : outcome B) : Prop :=
  forall a b, o1 = Ret a -> o2 = Ret b -> P a b.
Lemma both_bind {A B A' B'} (P : A -> B -> Prop) (Q : A' -> B' -> Prop) o1 o2 f1 f2 :
  both P o1 o2 -> (forall a b, o1 = Ret a -> o2 = Ret b -> P a b -> both Q (f1 a) (f2 b)) ->
  both Q (obind o1 f1) (obind o2 f2).
Proof. intros H H' a b E1 E2. destruct o1, o2; cbn in *; try done. eapply H'; eauto. Qed.
Lemma both_same {A A' B'} (Q : A' -> B' -> Prop) (o : outcome A) f1 f2 :
  (forall a, o = Ret a -> both Q (f1 a) (f2 a)) -> both Q (obind o f1) (obind o f2).
Proof. intros H a b E1 E2. destruct o; cbn in *; try done. eapply H; eauto. Qed.
Lemma both_mono {A B} (P Q : A -> B -> Prop) o1 o2 : both P o1 o2 -> (forall a b, P a b -> Q a b) -> both Q o1 o2.
Proof. intros H H' a b E1 E2. auto. Qed.
Lemma both_mono_eq {A B} (P Q : A -> B -> Prop) o1 o2 :
  both P o1 o2 -> (forall a b, o1 = Ret a -> o2 = Ret b -> P a b -> Q a b) -> both Q o1 o2.
Proof. intros H H' a b E1 E2. auto. Qed.
Lemma both_ret {A B} (P : A -> B -> Prop) a b : P a b -> both P (Ret a) (Ret b).
Proof. intros H a' b' [= <-] [= <-]. done. Qed.
Lemma both_ofold {I St1 St2} (P : St1 -> St2 -> Prop) (l : list I) s1 s2 b1 b2 :
  P s1 s2 -> (forall i t1 t2, i ∈ l -> P t1 t2 -> both P (b1 i t1) (b2 i t2)) ->
  both P (ofold l s1 b1) (ofold l s2 b2).
Proof.
  revert s1 s2; induction l as [|i l IH]; intros s1 s2 H0 Hs; simpl; [by apply both_ret|].
  eapply both_bind; [apply Hs; [left|done]|]. intros t1 t2 _ _ Ht. apply IH; [done|].
  intros; apply Hs; [by right|done].
Qed.
Lemma both_wp {A B} (P : A -> B -> Prop) (Q1 : A -> Prop) (Q2 : B -> Prop) o1 o2 :
  both P o1 o2 -> wp True True o1 Q1 -> wp True True o2 Q2 -> both (fun a b => P a b /\ Q1 a /\ Q2 b) o1 o2.
Proof. intros H W1 W2 a b E1 E2. rewrite E1 in W1. rewrite E2 in W2. cbn in *. auto. Qed.

(** ** Laws of a pair of widths *)
Definition cells_eq {R} {A : algo R} (vw : aview A) (n nf : nat) (s1 s2 : amp A) : Prop :=
  forall r c, (r < 2 * n)%nat -> (c < nf)%nat -> v_cell vw s2.1 s2.2 r c = v_cell vw s1.1 s1.2 r c.
(** after feedback: the same cells, generators, and tossers up to scratch *)
Definition t1_wide {R} {A : algo R} (vw : aview A) (n nf : nat) (r r' : nmatrix * a_pol A * coin_tosser * eG R) : Prop :=
  cells_eq vw n nf r.1.1 r'.1.1 /\ r'.2 = r.2 /\ ct_sim r.1.2 r'.1.2.
Record wide_laws {R} (A : algo R) (g_ok : eG R -> Prop) (vw : aview A) (w1 w2 N : Z) (I1 I2 : nat -> nat -> nmatrix -> a_pol A -> Prop) : Prop := {
  wl_inc : forall n nf (s1 s2 : amp A) j k, cells_eq vw n nf s1 s2 -> (j < n)%nat -> (k < nf)%nat ->
    v_inc vw s2.1 s2.2 j k = v_inc vw s1.1 s1.2 j k /\ v_incn vw s2.1 s2.2 j k = v_incn vw s1.1 s1.2 j k;
  wl_init : forall n nf g, g_ok g -> (0 < n)%nat ->
    both (fun r1 r2 => cells_eq vw n nf r1.1 r2.1 /\ r2.2 = r1.2) (a_init A w1 (2 * n) nf g) (a_init A w2 (2 * n) nf g);
  wl_t1n : forall n nf s1 s2 x j ct1 ct2 g, I1 n nf s1.1 s1.2 -> I2 n nf s2.1 s2.2 -> cells_eq vw n nf s1 s2 ->
    v_ok vw nf x -> (j < n)%nat -> ct_sim ct1 ct2 -> ct_ok R g_ok True True nf ct1 -> g_ok g ->
    both (t1_wide vw n nf) (a_type1_neg A N x j s1 ct1 g) (a_type1_neg A N x j s2 ct2 g);
  wl_t1p : forall boost n nf s1 s2 x j ct1 ct2 g, I1 n nf s1.1 s1.2 -> I2 n nf s2.1 s2.2 -> cells_eq vw n nf s1 s2 ->
    v_ok vw nf x -> (j < n)%nat -> ct_sim ct1 ct2 -> ct_ok R g_ok True True nf ct1 -> g_ok g ->
    both (t1_wide vw n nf) (a_type1_pos A boost N x j s1 ct1 g) (a_type1_pos A boost N x j s2 ct2 g);
  wl_t2 : forall n nf s1 s2 x j, I1 n nf s1.1 s1.2 -> I2 n nf s2.1 s2.2 -> cells_eq vw n nf s1 s2 ->
    v_ok vw nf x -> (j < n)%nat ->
    both (cells_eq vw n nf) (a_type2 A x j s1) (a_type2 A x j s2) }.

Section Instances.
  Context (R : rnd) (g_ok : eG R -> Prop) (f_ok : eF R -> Prop) (HR : rnd_ok R g_ok f_ok).
  Definition known_w (w : Z) : Prop := w = 8 \/ w = 16 \/ w = 32.
  Lemma igen_wrap w g : known_w w -> wrap_s w (igen_m1_0 R g).1 = - 1 + (g_next R g).1 mod 2.
  Proof.
    intros Hw. unfold igen_m1_0. destruct (g_next R g) as [r g']. cbn [fst].
    pose proof (Z.mod_pos_bound r 2 ltac:(lia)). assert (r mod 2 = 0 \/ r mod 2 = 1) as [-> | ->] by lia; destruct Hw as [->|[->| ->]]; done.
  Qed.

  (** *** Classic *)
  Section Classic.
    Context (w1 w2 N : Z) (Hw1 : known_w w1) (Hw2 : known_w w2) (HN1 : 1 <= N <= 2 ^ (w1 - 1)) (HN2 : 1 <= N <= 2 ^ (w2 - 1)).
    Lemma cl_cells n nf s1 s2 : cells_eq (cl_view R) n nf s1 s2 <->
      forall r c, (r < 2 * n)%nat -> (c < nf)%nat -> nm_cell s2.1 r c = nm_cell s1.1 r c.
    Proof. unfold cells_eq. cbn. split; intros H r c Hr Hc; specialize (H r c Hr Hc); congruence. Qed.
    Lemma cl_wide_upd n nf F m1 p1 m2 p2 m1' p1' m2' p2' : cl_inv R w1 N n nf m1 p1 -> cl_inv R w2 N n nf m2 p2 ->
      cells_eq (cl_view R) n nf (m1, p1) (m2, p2) -> nupd F m1 m1' -> nupd F m2 m2' -> cells_eq (cl_view R) n nf (m1', p1') (m2', p2').
    Proof.
      intros (_ & _ & R1 & C1 & _) (_ & _ & R2 & C2 & _) H (_ & _ & U1) (_ & _ & U2). rewrite cl_cells in *. cbn in *.
      intros r c Hr Hc. rewrite U1, U2 by lia. by rewrite H.
    Qed.
    Lemma cl_init_cell w m i k v m' rows cols : known_w w -> nm_wf m -> nm_same_shape (nm_new w rows cols) m -> (i < rows)%nat -> (k < cols)%nat ->
      nm_set m i k v = Ret m' -> nm_wf m' /\ nm_same_shape (nm_new w rows cols) m' /\
      forall r c, (c < cols)%nat -> nm_cell m' r c = if Nat.eqb r i && Nat.eqb c k then wrap_s w v else nm_cell m r c.
    Proof.
      intros Hw Hwf (Ew & Er & Ec) Hi Hk E. cbn [nm_new nm_w nm_rows nm_cols] in *.
      destruct (nm_set_spec m i k v Hwf) as (m3 & E3 & Hwf3 & Hs3 & Hc3); [lia|lia|]. rewrite E3 in E. injection E as <-.
      pose proof Hs3 as (Ew3 & Er3 & Ec3). split; [done|]. split; [split_and!; cbn [nm_new nm_w nm_rows nm_cols]; congruence|].
      intros r c Hc. rewrite Hc3 by lia. by rewrite Ew.
    Qed.
    Lemma cl_init_wide n nf g : (0 < n)%nat ->
      both (fun r1 r2 => cells_eq (cl_view R) n nf r1.1 r2.1 /\ r2.2 = r1.2) (classic_init R w1 (2 * n) nf g) (classic_init R w2 (2 * n) nf g).
    Proof.
      intros Hn [[a1 p1] g1] [[a2 p2] g2] E1 E2.
      pose proof (classic_init_written R w1 (2 * n) nf g a1 p1 g1 ltac:(lia) Hw1 E1) as B1.
      pose proof (classic_init_written R w2 (2 * n) nf g a2 p2 g2 ltac:(lia) Hw2 E2) as B2.
      revert E1 E2. cut (both (fun r1 r2 : nmatrix * unit * eG R => cells_eq (cl_view R) n nf r1.1 r2.1 /\ r2.2 = r1.2) (classic_init R w1 (2 * n) nf g) (classic_init R w2 (2 * n) nf g)).
      { intros H E1 E2. exact (H _ _ E1 E2). }
      unfold classic_init. cbv zeta. cbn [nm_new nm_rows nm_cols]. fold (nm_new w1 (2 * n) nf). fold (nm_new w2 (2 * n) nf).
      set (P := fun (s1 s2 : nmatrix * eG R) => nm_wf s1.1 /\ nm_wf s2.1 /\ nm_same_shape (nm_new w1 (2 * n) nf) s1.1 /\ nm_same_shape (nm_new w2 (2 * n) nf) s2.1 /\
        s2.2 = s1.2 /\ forall r c, (c < nf)%nat -> nm_cell s2.1 r c = nm_cell s1.1 r c).
      eapply (both_bind P).
      - apply (both_ofold P).
        + split; [done|]. split; [done|]. split; [done|]. split; [done|]. split; [done|]. intros r c Hc. cbn [fst]. by rewrite !nm_new_cell.
        + intros i t1 t2 [_ Hi]%elem_of_seq HP. destruct t1 as [m1 h1], t2 as [m2 h2].
          assert (nm_cols m1 = nf /\ nm_cols m2 = nf) as [C1 C2] by (destruct HP as (_ & _ & (_ & _ & ?) & (_ & _ & ?) & _); done).
          rewrite C1, C2. apply (both_ofold P); [done|]. intros k [m1' h1'] [m2' h2'] [_ Hk]%elem_of_seq (W1 & W2 & S1 & S2 & Eh & Hc).
          cbn [fst snd] in *. subst h2'. pose proof (igen_wrap w1 h1' Hw1) as G1. pose proof (igen_wrap w2 h1' Hw2) as G2.
          destruct (igen_m1_0 R h1') as [v h3]. cbn [fst] in *. intros z1 z2.
          destruct (nm_set m1' i k v) as [m3| | |] eqn:Q1; [|done..]. destruct (nm_set m2' i k v) as [m4| | |] eqn:Q2; [|done..].
          cbn [obind]. intros [= <-] [= <-].
          destruct (cl_init_cell w1 m1' i k v m3 (2 * n) nf Hw1 W1 S1 ltac:(lia) ltac:(lia) Q1) as (X1 & X2 & X3).
          destruct (cl_init_cell w2 m2' i k v m4 (2 * n) nf Hw2 W2 S2 ltac:(lia) ltac:(lia) Q2) as (Y1 & Y2 & Y3).
          do 5 (split; [done|]). cbn [fst]. intros r c Hlt. rewrite X3, Y3 by done. rewrite G1, G2. destruct (_ && _); [done|]. by apply Hc.
      - intros [m1 h1] [m2 h2] _ _ (_ & _ & _ & _ & Eh & Hc). apply both_ret. cbn [fst snd] in *. split; [|done].
        apply cl_cells. intros r c _ Hlt. by apply Hc.
    Qed.
    Lemma classic_wide : wide_laws (classic R) g_ok (cl_view R) w1 w2 N (cl_inv R w1 N) (cl_inv R w2 N).
    Proof.
      constructor.
      - intros n nf s1 s2 j k H Hj Hk. rewrite cl_cells in H. cbn. unfold auto_inc, auto_incn.
        by rewrite !H by lia.
      - intros n nf g _ Hn. by apply cl_init_wide.
      - intros n nf [m1 []] [m2 []] x j ct1 ct2 g HI1 HI2 Hc Hx Hj Hct Hok Hg. cbn. rewrite (tosses12_sim R ct1 ct2 g Hct).
        apply both_same. intros [ct g'] Et. pose proof (tosses12_spec R g_ok f_ok HR True True nf ct1 g Hg Hok) as W. rewrite Et in W. cbn in W.
        destruct W as (_ & _ & (_ & Z1 & Z2 & _)). pose proof Hx as [El _]. rewrite El.
        pose proof HI1 as (G1 & Ew1 & R1 & C1 & _). pose proof HI2 as (G2 & Ew2 & R2 & C2 & _). cbn [fst snd] in *.
        destruct (block1_spec nf N j (ct_c1 ct) (ct_c2 ct) m1) as (m1' & -> & U1); [done|done|lia|done|done|by rewrite Ew1|].
        destruct (block1_spec nf N j (ct_c1 ct) (ct_c2 ct) m2) as (m2' & -> & U2); [done|done|lia|done|done|by rewrite Ew2|].
        apply both_ret. split; [|split; [done|apply ct_sim_refl]]. cbn [fst]. by eapply cl_wide_upd.
      - intros boost n nf [m1 []] [m2 []] x j ct1 ct2 g HI1 HI2 Hc Hx Hj Hct Hok Hg. cbn. rewrite (tosses12_sim R ct1 ct2 g Hct).
        apply both_same. intros [ct g'] Et. pose proof (tosses12_spec R g_ok f_ok HR True True nf ct1 g Hg Hok) as W. rewrite Et in W. cbn in W.
        destruct W as (_ & _ & (_ & Z1 & Z2 & _)). pose proof Hx as [El _]. rewrite El.
        pose proof HI1 as (G1 & Ew1 & R1 & C1 & _). pose proof HI2 as (G2 & Ew2 & R2 & C2 & _). cbn [fst snd] in *.
        destruct (block2_spec boost nf N j x (ct_c1 ct) (ct_c2 ct) m1) as (m1' & -> & U1); [done|done|lia|done|done|done|by rewrite Ew1|].
        destruct (block2_spec boost nf N j x (ct_c1 ct) (ct_c2 ct) m2) as (m2' & -> & U2); [done|done|lia|done|done|done|by rewrite Ew2|].
        apply both_ret. split; [|split; [done|apply ct_sim_refl]]. cbn [fst]. by eapply cl_wide_upd.
      - intros n nf [m1 []] [m2 []] x j HI1 HI2 Hc Hx Hj. cbn. pose proof Hx as [El _]. rewrite El.
        pose proof HI1 as (G1 & Ew1 & R1 & C1 & _). pose proof HI2 as (G2 & Ew2 & R2 & C2 & _). cbn [fst snd] in *.
        destruct (block3_spec nf j x m1) as (m1' & -> & U1); [done|done|lia|done|].
        destruct (block3_spec nf j x m2) as (m2' & -> & U2); [done|done|lia|done|].
        apply both_ret. by eapply cl_wide_upd.
    Qed.
  End Classic.

  (** *** Bitwise *)
  Section Bitwise.
    Context (w1 w2 N : Z) (Hw1 : known_w w1) (Hw2 : known_w w2) (HN1 : 2 <= N <= 2 ^ (w1 - 1)) (HN2 : 2 <= N <= 2 ^ (w2 - 1)).
    Notation cells := (cells_eq (bw_view R)).
    Lemma bw_wide_upd n nf F1 F2 (s1 s2 s1' s2' : amp (Algo.bitwise R)) : bw_full R w1 N n nf s1.1 s1.2 -> bw_full R w2 N n nf s2.1 s2.2 ->
      cells n nf s1 s2 -> bupd F1 s1 s1' -> bupd F2 s2 s2' ->
      (forall r c v, cell_ok N v -> in_w w1 v.1 -> in_w w2 v.1 -> F2 r c v = F1 r c v) -> cells n nf s1' s2'.
    Proof.
      intros [((G1 & _) & W1 & R1 & C1 & _) K1] [((G2 & _) & W2 & R2 & C2 & _) K2] H (_ & _ & U1 & _) (_ & _ & U2 & _) HF r c Hr Hc.
      cbn in *. destruct s1, s2, s1', s2'; cbn in *. rewrite U1, U2 by lia. specialize (H r c Hr Hc). cbn in H. rewrite H. apply HF.
      - by apply K1.
      - rewrite <- W1. apply G1; cbn; lia.
      - rewrite <- H, <- W2. apply G2; cbn; lia.
    Qed.
    Lemma full_upd w n nf F s s' : bw_full R w N n nf s.1 s.2 -> bupd F s s' -> (forall r c v, cell_ok N v -> cell_ok N (F r c v)) ->
      bw_full R w N n nf s'.1 s'.2.
    Proof.
      destruct s as [m p], s' as [m' p']. cbn [fst snd].
      intros [(Hg & Ew & Er & Ec & Hpad & Hrb) Hk] (Hg' & [(Ew' & Er' & Ec') (Eb1 & Eb2 & Eb3)] & Hcell & Hp') HF. cbn [fst snd] in *. split.
      - split; [done|]. split; [congruence|]. split; [congruence|]. split; [congruence|].
        split; [|congruence]. intros r c Hr Hc. destruct Hg as (_ & _ & E1 & E2). cbn [fst snd] in *. rewrite Hp' by lia. apply Hpad; lia.
      - intros r c Hr Hc. rewrite Hcell by lia. apply HF. by apply Hk.
    Qed.
    Lemma sparse_wide n nf hits j s1 s2 g : bw_full R w1 N n nf s1.1 s1.2 -> bw_full R w2 N n nf s2.1 s2.2 -> cells n nf s1 s2 -> (j < n)%nat ->
      both (fun r1 r2 => cells n nf r1.1 r2.1 /\ r2.2 = r1.2) (block1_sparse R nf hits N j s1 g) (block1_sparse R nf hits N j s2 g).
    Proof.
      intros H1 H2 Hc Hj. unfold block1_sparse. apply both_same. intros ixs _.
      set (P := fun (r1 r2 : amp (Algo.bitwise R) * eG R) => bw_full R w1 N n nf r1.1.1 r1.1.2 /\ bw_full R w2 N n nf r2.1.1 r2.1.2 /\ cells n nf r1.1 r2.1 /\ r2.2 = r1.2).
      assert (forall r k t1 t2, (r < 2 * n)%nat -> (k < nf)%nat -> bw_full R w1 N n nf t1.1 t1.2 -> bw_full R w2 N n nf t2.1 t2.2 -> cells n nf t1 t2 ->
        both (fun u1 u2 => bw_full R w1 N n nf u1.1 u1.2 /\ bw_full R w2 N n nf u2.1 u2.2 /\ cells n nf u1 u2) (bw_dec_cell N r k t1.1 t1.2) (bw_dec_cell N r k t2.1 t2.2)) as Hdec.
      { intros r k [m1 p1] [m2 p2] Hr Hk F1 F2 Ht. cbn [fst snd] in *. pose proof F1 as [(Gd1 & W1 & R1 & C1 & P1 & B1) K1]. pose proof F2 as [(Gd2 & W2 & R2 & C2 & P2 & B2) K2].
        destruct (bw_dec_cell_spec (m1, p1) Gd1 r k ltac:(cbn; lia) ltac:(cbn; lia) N ltac:(cbn [fst]; rewrite W1; lia)) as (u1 & E1 & U1). cbn [fst snd] in E1. rewrite E1.
        destruct (bw_dec_cell_spec (m2, p2) Gd2 r k ltac:(cbn; lia) ltac:(cbn; lia) N ltac:(cbn [fst]; rewrite W2; lia)) as (u2 & E2 & U2). cbn [fst snd] in E2. rewrite E2.
        apply both_ret.
        assert (forall v, cell_ok N v -> forall r0 c0, cell_ok N (at_cell r k (decf N) r0 c0 v)) as Hk'.
        { intros v Hv r0 c0. unfold at_cell. destruct (_ && _); [|done]. apply decf_ok; [lia|done]. }
        split; [by eapply (full_upd w1 n nf _ (m1, p1)); eauto|]. split; [by eapply (full_upd w2 n nf _ (m2, p2)); eauto|].
        by eapply (bw_wide_upd n nf _ _ (m1, p1) (m2, p2)); [..|by intros]. }
      assert (forall h k h', draw_mod R h nf = Ret (k, h') -> (k < nf)%nat) as Hdraw.
      { intros h k h' E. unfold draw_mod in E. destruct (g_next R h) as [r h1]. destruct (Nat.eqb_spec nf 0); [done|].
        injection E as <- <-. pose proof (Z.mod_pos_bound r (Z.of_nat nf) ltac:(lia)). lia. }
      eapply both_mono; [apply (both_ofold P)|].
      - done.
      - intros i [t1 h1] [t2 h2] _ (F1 & F2 & Ht & Eh). cbn [fst snd] in *. subst h2.
        apply both_same. intros [k1 h2] Q1. eapply both_bind; [apply Hdec; try done; [lia|by eapply Hdraw]|].
        intros u1 u2 _ _ (F1' & F2' & Hu). apply both_same. intros [k2 h3] Q2.
        eapply both_bind; [apply Hdec; try done; [lia|by eapply Hdraw]|]. intros v1 v2 _ _ (F1'' & F2'' & Hv). by apply both_ret.
      - intros r1 r2 (_ & _ & ? & ?). done.
    Qed.
    Lemma bw_init_cell w m p i k v m' p' n nf : known_w w -> nm_wf m -> nm_same_shape (nm_new w (2 * n) nf) m -> bm_wf 64 p -> bm_same_shape (bm_new 64 (2 * n) nf) p ->
      (i < 2 * n)%nat -> (k < nf)%nat ->
      (let* m := nm_set m i k v in let* st := nm_get m i k in
       let* p := (if 0 <=? st then bm_set 64 p i k else bm_clear 64 p i k) in Ret (m, p)) = Ret (m', p') ->
      nm_wf m' /\ nm_same_shape (nm_new w (2 * n) nf) m' /\ bm_wf 64 p' /\ bm_same_shape (bm_new 64 (2 * n) nf) p' /\
      forall r c, (c < nf)%nat -> jv (m', p') r c = if Nat.eqb r i && Nat.eqb c k then (wrap_s w v, 0 <=? wrap_s w v) else jv (m, p) r c.
    Proof.
      intros Hw Hwf (Ew & Er & Ec) Hb (Eb1 & Eb2 & Eb3) Hi Hk E. cbn [nm_new nm_w nm_rows nm_cols bm_new bm_rows bm_cols] in *.
      destruct (nm_set_spec m i k v Hwf) as (m3 & E3 & Hwf3 & Hs3 & Hc3); [lia|lia|]. rewrite E3 in E. cbn [obind] in E.
      pose proof Hs3 as (Ew3 & Er3 & Ec3). rewrite nm_get_spec in E by (auto; lia). cbn [obind] in E. rewrite Hc3 in E by lia.
      rewrite !Nat.eqb_refl in E. cbn [andb] in E. rewrite Ew in E. set (st := wrap_s w v) in *.
      assert (k < bm_row_blocks p * 64)%nat as Hkb by (destruct Hb; lia).
      assert (exists p3, (if 0 <=? st then bm_set 64 p i k else bm_clear 64 p i k) = Ret p3 /\ bm_wf 64 p3 /\
        bm_same_shape p p3 /\ forall r' c', (c' < bm_row_blocks p * 64)%nat ->
          bm_bit 64 p3 r' c' = if Nat.eqb r' i && Nat.eqb c' k then 0 <=? st else bm_bit 64 p r' c') as (p3 & Ep & Hb3 & Hbs3 & Hbit3).
      { destruct (0 <=? st); [apply bm_set_spec|apply bm_clear_spec]; auto; lia. }
      rewrite Ep in E. cbn [obind] in E. injection E as <- <-. pose proof Hbs3 as (Eb1' & Eb2' & Eb3').
      split; [done|]. split; [split_and!; cbn [nm_new nm_w nm_rows nm_cols]; congruence|]. split; [done|].
      split; [split_and!; [rewrite Eb1'; exact Eb1|rewrite Eb2'; exact Eb2|rewrite Eb3'; exact Eb3]|].
      intros r c Hc. unfold jv. cbn [fst snd]. rewrite Hc3 by lia. rewrite Hbit3 by (destruct Hb; lia). rewrite Ew. fold st. by destruct (_ && _).
    Qed.
    Lemma bw_init_wide n nf g : (0 < n)%nat ->
      both (fun r1 r2 => cells n nf r1.1 r2.1 /\ r2.2 = r1.2) (bitwise_init R w1 (2 * n) nf g) (bitwise_init R w2 (2 * n) nf g).
    Proof.
      intros Hn [[a1 q1] g1] [[a2 q2] g2] E1 E2.
      destruct (bitwise_init_written R w1 (2 * n) nf g a1 q1 g1 ltac:(lia) Hw1 E1) as [B1 D1].
      destruct (bitwise_init_written R w2 (2 * n) nf g a2 q2 g2 ltac:(lia) Hw2 E2) as [B2 D2].
      revert E1 E2. cut (both (fun r1 r2 : nmatrix * bmatrix * eG R => cells n nf r1.1 r2.1 /\ r2.2 = r1.2) (bitwise_init R w1 (2 * n) nf g) (bitwise_init R w2 (2 * n) nf g)).
      { intros H E1 E2. exact (H _ _ E1 E2). }
      unfold bitwise_init. cbv zeta. cbn [nm_new nm_rows nm_cols]. fold (nm_new w1 (2 * n) nf). fold (nm_new w2 (2 * n) nf).
      set (Q := fun w (s : nmatrix * bmatrix * eG R) => nm_wf s.1.1 /\ nm_same_shape (nm_new w (2 * n) nf) s.1.1 /\ bm_wf 64 s.1.2 /\ bm_same_shape (bm_new 64 (2 * n) nf) s.1.2).
      set (P := fun (s1 s2 : nmatrix * bmatrix * eG R) => Q w1 s1 /\ Q w2 s2 /\ s2.2 = s1.2 /\ forall r c, (c < nf)%nat -> jv s2.1 r c = jv s1.1 r c).
      eapply (both_bind P).
      - apply (both_ofold P).
        + split; [done|]. split; [done|]. split; [done|]. intros r c Hc. unfold jv. cbn [fst snd]. by rewrite !nm_new_cell.
        + intros i t1 t2 [_ Hi]%elem_of_seq HP. destruct t1 as [[m1 p1] h1], t2 as [[m2 p2] h2].
          assert (nm_cols m1 = nf /\ nm_cols m2 = nf) as [C1 C2] by (destruct HP as ((_ & (_ & _ & ?) & _) & (_ & (_ & _ & ?) & _) & _); done).
          rewrite C1, C2. apply (both_ofold P); [done|]. intros k [[m1' p1'] h1'] [[m2' p2'] h2'] [_ Hk]%elem_of_seq ((W1 & S1 & X1 & Y1) & (W2 & S2 & X2 & Y2) & Eh & Hc).
          cbn [fst snd] in *. subst h2'. pose proof (igen_wrap w1 h1' Hw1) as G1. pose proof (igen_wrap w2 h1' Hw2) as G2.
          destruct (igen_m1_0 R h1') as [v h3]. cbn [fst] in *.
          pose proof (fun m' p' => bw_init_cell w1 m1' p1' i k v m' p' n nf Hw1 W1 S1 X1 Y1 ltac:(lia) ltac:(lia)) as Z1.
          pose proof (fun m' p' => bw_init_cell w2 m2' p2' i k v m' p' n nf Hw2 W2 S2 X2 Y2 ltac:(lia) ltac:(lia)) as Z2.
          intros z1 z2.
          destruct (nm_set m1' i k v) as [m3| | |]; [|done..]. destruct (nm_set m2' i k v) as [m4| | |]; [|done..]. cbn [obind] in *.
          destruct (nm_get m3 i k) as [c3| | |]; [|done..]. destruct (nm_get m4 i k) as [c4| | |]; [|done..]. cbn [obind] in *.
          destruct (if 0 <=? c3 then _ else _) as [p3| | |]; [|done..]. destruct (if 0 <=? c4 then _ else _) as [p4| | |]; [|done..]. cbn [obind] in *.
          intros [= <-] [= <-]. destruct (Z1 _ _ eq_refl) as (V1 & V2 & V3 & V4 & V5). destruct (Z2 _ _ eq_refl) as (U1 & U2 & U3 & U4 & U5).
          do 3 (split; [done|]). cbn [fst]. intros r c Hlt. rewrite V5, U5 by done. rewrite G1, G2. destruct (_ && _); [done|]. by apply Hc.
      - intros [[m1 p1] h1] [[m2 p2] h2] _ _ (_ & _ & Eh & Hc). apply both_ret. cbn [fst snd] in *. split; [|done].
        intros r c _ Hlt. cbn. by apply Hc.
    Qed.
    Lemma bitwise_wide : wide_laws (Algo.bitwise R) g_ok (bw_view R) w1 w2 N (bw_full R w1 N) (bw_full R w2 N).
    Proof.
      constructor.
      - intros n nf s1 s2 j k H Hj Hk. cbn. unfold pol_inc, pol_incn.
        pose proof (H (2 * j)%nat k ltac:(lia) Hk) as H1. pose proof (H (2 * j + 1)%nat k ltac:(lia) Hk) as H2. cbn in H1, H2. unfold jv in H1, H2. cbn in H1, H2.
        split; [exact (f_equal snd H1)|exact (f_equal snd H2)].
      - intros n nf g _ Hn. by apply bw_init_wide.
      - intros n nf s1 s2 x j ct1 ct2 g HI1 HI2 Hc Hx Hj Hct Hok Hg. cbn. pose proof Hct as ((E1 & E2 & E3) & _). unfold ct_estimate_hits. rewrite E2, E3.
        destruct (g_next R g) as [r g1]. destruct Hx as (El & _). rewrite El.
        eapply both_bind; [by apply sparse_wide|]. intros [u1 h1] [u2 h2] _ _ [Hu Eh]. cbn [fst snd] in *. subst h2. apply both_ret. done.
      - intros boost n nf s1 s2 x j ct1 ct2 g HI1 HI2 Hc Hx Hj Hct Hok Hg. cbn. rewrite (tosses12_sim R ct1 ct2 g Hct).
        apply both_same. intros [ct g'] Et. pose proof (tosses12_spec R g_ok f_ok HR True True nf ct1 g Hg Hok) as W. rewrite Et in W. cbn in W.
        destruct W as (_ & _ & (_ & Z1 & Z2 & _)).
        pose proof HI1 as [(G1 & Ew1 & R1 & C1 & _) _]. pose proof HI2 as [(G2 & Ew2 & R2 & C2 & _) _]. destruct s1 as [m1 p1], s2 as [m2 p2]. cbn [fst snd] in *.
        destruct (bw_block2_spec boost N j nf x (ct_c1 ct) (ct_c2 ct) (m1, p1)) as (s1' & -> & U1); [done|done|cbn; lia|done|done|done|cbn [fst]; rewrite Ew1; lia|].
        destruct (bw_block2_spec boost N j nf x (ct_c1 ct) (ct_c2 ct) (m2, p2)) as (s2' & -> & U2); [done|done|cbn; lia|done|done|done|cbn [fst]; rewrite Ew2; lia|].
        apply both_ret. split; [|split; [done|apply ct_sim_refl]]. cbn [fst]. by eapply (bw_wide_upd n nf _ _ (m1, p1) (m2, p2)); [..|by intros].
      - intros n nf s1 s2 x j HI1 HI2 Hc Hx Hj. cbn.
        pose proof HI1 as [(G1 & Ew1 & R1 & C1 & _) _]. pose proof HI2 as [(G2 & Ew2 & R2 & C2 & _) _]. destruct s1 as [m1 p1], s2 as [m2 p2]. cbn [fst snd] in *.
        destruct (bw_block3_spec j nf x (m1, p1)) as (s1' & -> & U1); [done|cbn; lia|done|done|].
        destruct (bw_block3_spec j nf x (m2, p2)) as (s2' & -> & U2); [done|cbn; lia|done|done|].
        apply both_ret. eapply (bw_wide_upd n nf _ _ (m1, p1) (m2, p2)); [done..|]. cbn [fst]. intros r c v Hv V1 V2.
        assert (0 < w1 /\ 0 < w2) as [P1 P2] by (destruct Hw1 as [->|[->| ->]], Hw2 as [->|[->| ->]]; lia).
        rewrite Ew1, Ew2. assert (forall lit, b3f w2 lit v = b3f w1 lit v) as Hb.
        { intros lit. destruct (b3f_full w1 N lit v P1 ltac:(lia) Hv V1) as [[_ A1] A2]. destruct (b3f_full w2 N lit v P2 ltac:(lia) Hv V2) as [[_ A3] A4].
          destruct (b3f w1 lit v), (b3f w2 lit v). cbn in *. congruence. }
        unfold on_clause. destruct (Nat.eqb _ _); [done|]. destruct (Nat.eqb _ _); done.
    Qed.
  End Bitwise.
End Instances.
