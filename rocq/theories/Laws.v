(** * What the estimator level needs to know about the two learning algorithms. *)
From Verif Require Export ClauseFacts BwSparseFacts Estimator.
Local Open Scope Z_scope.

(** A reading of samples and automata, used by specifications. *)
Record aview {R : rnd} (A : algo R) := AView {
  v_phys : a_smp A -> Prop;                            (* constructible sample *)
  v_ok : nat -> a_smp A -> Prop;                       (* valid sample with that many features *)
  v_x : a_smp A -> nat -> bool;                        (* feature k *)
  v_inc : nmatrix -> a_pol A -> nat -> nat -> bool;    (* clause j includes literal x_k *)
  v_incn : nmatrix -> a_pol A -> nat -> nat -> bool;   (* clause j includes literal not x_k *)
  v_cell : nmatrix -> a_pol A -> nat -> nat -> Z * bool; (* everything stored for automaton (row, column) *)
  v_fits : Z -> nat -> nat -> Prop;                    (* sizes fit the 32-bit size arithmetic: width, rows, cols *)
}.
Arguments v_phys {R A}. Arguments v_ok {R A}. Arguments v_x {R A}. Arguments v_inc {R A}. Arguments v_incn {R A}.
Arguments v_cell {R A}. Arguments v_fits {R A}.

Notation amp A := (nmatrix * a_pol A)%type.

(** automata of all clauses other than [j] are as before *)
Definition only_clause {R} {A : algo R} (vw : aview A) (n nf j : nat) (s s' : amp A) : Prop :=
  forall r c, (r < 2 * n)%nat -> (c < nf)%nat -> r <> (2 * j)%nat -> r <> (2 * j + 1)%nat ->
    v_cell vw s'.1 s'.2 r c = v_cell vw s.1 s.2 r c.

(** the automata of clause [j] are the same *)
Definition same_clause {R} {A : algo R} (vw : aview A) (nf j : nat) (s s' : amp A) : Prop :=
  forall k, (k < nf)%nat -> v_cell vw s'.1 s'.2 (2 * j) k = v_cell vw s.1 s.2 (2 * j) k /\
    v_cell vw s'.1 s'.2 (2 * j + 1) k = v_cell vw s.1 s.2 (2 * j + 1) k.
(** equal results up to scratch contents of the tosser *)
Definition t1_sim {R} {A : algo R} (r r' : nmatrix * a_pol A * coin_tosser * eG R) : Prop :=
  r'.1.1 = r.1.1 /\ r'.2 = r.2 /\ ct_sim r.1.2 r'.1.2.

Section Laws.
  Context {R : rnd} (A : algo R) (g_ok : eG R -> Prop).
  Context (vw : aview A) (U V : Prop) (w N : Z).
  (** invariant of automata: number of clauses, number of features *)
  Context (I : nat -> nat -> nmatrix -> a_pol A -> Prop).
  (** effects of feedback on clause [j]: features, tosser, sample, clause, before, after *)
  Context (E1n : nat -> coin_tosser -> a_smp A -> nat -> amp A -> amp A -> Prop).
  Context (E1p : bool -> nat -> coin_tosser -> a_smp A -> nat -> amp A -> amp A -> Prop).
  Context (E2 : nat -> a_smp A -> nat -> amp A -> amp A -> Prop).

  Definition fb_post (E : amp A -> amp A -> Prop) (n nf j : nat) (s : amp A) (ct : coin_tosser)
    : nmatrix * a_pol A * coin_tosser * eG R -> Prop :=
    fun '(m', p', ct', g') =>
      I n nf m' p' /\ only_clause vw n nf j s (m', p') /\ E s (m', p') /\
      same_rate ct ct' /\ ct_ok R g_ok U V nf ct' /\ g_ok g'.

  Record laws : Prop := {
    l_size : forall nf x, v_ok vw nf x -> a_size A x = nf;
    l_pad : forall x, v_phys vw x -> exists b, a_pad A x = Ret b;
    l_accept : forall x, v_phys vw x -> (a_01 A x = true /\ a_pad A x = Ret true) <-> v_ok vw (a_size A x) x;
    l_rows : forall n nf m p, I n nf m p -> nm_rows m = (2 * n)%nat;
    l_init : forall n nf g, g_ok g -> (0 < n)%nat -> (v_fits vw w (2 * n) nf \/ U) ->
      wp U V (a_init A w (2 * n) nf g) (fun '(m, p, g') => I n nf m p /\ g_ok g');
    l_clause : forall n nf m p ws x j B, I n nf m p -> v_ok vw nf x -> (j < n)%nat -> (0 < B)%nat ->
      a_clause A B x (TA m ws p) j = Ret (b2z (clause_true nf (v_inc vw m p j) (v_incn vw m p j) (v_x vw x)));
    l_pruned : forall n nf m p ws x j B, I n nf m p -> v_ok vw nf x -> (j < n)%nat -> (0 < B)%nat ->
      a_clause_pruned A B x (TA m ws p) j =
        Ret (b2z (clause_true nf (v_inc vw m p j) (v_incn vw m p j) (v_x vw x)
                  && clause_nonempty nf (v_inc vw m p j) (v_incn vw m p j)));
    l_t1n : forall n nf m p x j ct g, I n nf m p -> v_ok vw nf x -> (j < n)%nat ->
      ct_ok R g_ok U V nf ct -> g_ok g ->
      wp U V (a_type1_neg A N x j (m, p) ct g) (fb_post (E1n nf ct x j) n nf j (m, p) ct);
    l_t1p : forall boost n nf m p x j ct g, I n nf m p -> v_ok vw nf x -> (j < n)%nat ->
      ct_ok R g_ok U V nf ct -> g_ok g ->
      wp U V (a_type1_pos A boost N x j (m, p) ct g) (fb_post (E1p boost nf ct x j) n nf j (m, p) ct);
    l_t2 : forall n nf m p x j, I n nf m p -> v_ok vw nf x -> (j < n)%nat ->
      wp U V (a_type2 A x j (m, p)) (fun '(m', p') =>
        I n nf m' p' /\ only_clause vw n nf j (m, p) (m', p') /\ E2 nf x j (m, p) (m', p'));
    l_f1n : forall nf ct ct' x j s s' t t', same_rate ct ct' -> same_clause vw nf j s t -> same_clause vw nf j s' t' ->
      E1n nf ct x j s s' -> E1n nf ct' x j t t';
    l_f1p : forall boost nf ct ct' x j s s' t t', same_rate ct ct' -> same_clause vw nf j s t -> same_clause vw nf j s' t' ->
      E1p boost nf ct x j s s' -> E1p boost nf ct' x j t t';
    l_f2 : forall nf x j s s' t t', same_clause vw nf j s t -> same_clause vw nf j s' t' ->
      E2 nf x j s s' -> E2 nf x j t t';
    l_s1n : forall x j s ct ct' g, ct_sim ct ct' ->
      orel t1_sim (a_type1_neg A N x j s ct g) (a_type1_neg A N x j s ct' g);
    l_s1p : forall boost x j s ct ct' g, ct_sim ct ct' ->
      orel t1_sim (a_type1_pos A boost N x j s ct g) (a_type1_pos A boost N x j s ct' g);
  }.
End Laws.

(** ** Storage that was written to the last cell has the right size *)
Lemma u32_range z : 0 <= u32 z < 4294967296.
Proof. unfold u32. apply Z.mod_pos_bound. lia. Qed.

Lemma wrapped_bound (stride rows len : Z) (c : Z) :
  0 <= stride < 4294967296 -> 0 < rows -> 0 <= c -> len = u32 (stride * rows) ->
  (rows - 1) * stride + c < len -> len = stride * rows /\ c < stride.
Proof.
  intros Hs Hr Hc -> Hlt. unfold u32 in *.
  pose proof (Z.div_mod (stride * rows) 4294967296 ltac:(lia)) as E.
  pose proof (Z.mod_pos_bound (stride * rows) 4294967296 ltac:(lia)).
  assert (0 <= stride * rows / 4294967296) by (apply Z.div_pos; nia).
  assert (stride * rows / 4294967296 = 0 \/ 1 <= stride * rows / 4294967296) as [E0|E1] by lia; nia.
Qed.

Lemma row_items_0 w : w = 8 \/ w = 16 \/ w = 32 -> row_items w 0 = 0.
Proof. by intros [->|[->| ->]]. Qed.
Lemma row_items_range w cols : 0 <= row_items w cols < 4294967296.
Proof. apply u32_range. Qed.
Lemma row_blocks_range W cols : 0 <= row_blocks W cols < 4294967296.
Proof. apply u32_range. Qed.

Lemma nm_new_wf_written w rows cols : (0 < rows)%nat -> (w = 8 \/ w = 16 \/ w = 32) ->
  ((0 < cols)%nat -> (nm_offset (nm_new w rows cols) (rows - 1) (cols - 1) < length (nm_data (nm_new w rows cols)))%nat) ->
  nm_wf (nm_new w rows cols).
Proof.
  intros Hr Hw Hb. split; [|split; [intros r c _; apply nm_new_cell|unfold nm_alloc; cbn [nm_new nm_w nm_rows nm_cols nm_data]; by rewrite replicate_length]]. unfold nm_sized, nm_offset, nm_stride in *. cbn [nm_new nm_w nm_rows nm_cols nm_data] in *.
  rewrite replicate_length in *.
  destruct (decide (cols = 0%nat)) as [->|Hc].
  { rewrite row_items_0 by done. simpl. split; [lia|]. rewrite Nat.mul_0_r. done. }
  specialize (Hb ltac:(lia)). pose proof (row_items_range w cols) as Hs.
  pose proof (u32_range (row_items w cols * Z.of_nat rows)).
  destruct (wrapped_bound (row_items w cols) (Z.of_nat rows) (u32 (row_items w cols * Z.of_nat rows)) (Z.of_nat (cols - 1)))
    as [E1 E2]; try lia; try nia.
Qed.
Lemma row_blocks_0 : row_blocks 64 0 = 0.
Proof. done. Qed.
Lemma bm_new_wf_written rows cols : (0 < rows)%nat ->
  ((0 < cols)%nat -> ((rows - 1) * bm_row_blocks (bm_new 64 rows cols) + (cols - 1) / 64 < length (bm_data (bm_new 64 rows cols)))%nat) ->
  bm_wf 64 (bm_new 64 rows cols).
Proof.
  intros Hr Hb. unfold bm_wf. cbn [bm_new bm_rows bm_cols bm_row_blocks bm_data] in *.
  rewrite replicate_length in *.
  destruct (decide (cols = 0%nat)) as [->|Hc].
  { rewrite row_blocks_0. simpl. split; [lia|]. split; [by rewrite Nat.mul_0_r|]. constructor. }
  specialize (Hb ltac:(lia)). pose proof (row_blocks_range 64 cols) as Hs.
  pose proof (u32_range (row_blocks 64 cols * Z.of_nat rows)).
  destruct (wrapped_bound (row_blocks 64 cols) (Z.of_nat rows) (u32 (row_blocks 64 cols * Z.of_nat rows)) (Z.of_nat ((cols - 1) / 64)))
    as [E1 E2]; try lia; try nia.
  pose proof (Nat.div_mod (cols - 1) 64 ltac:(lia)). pose proof (Nat.mod_upper_bound (cols - 1) 64 ltac:(lia)).
  split; [nia|]. split; [nia|]. apply Forall_replicate_block.
Qed.

(** ** Initial automata *)
Section Init.
  Context (R : rnd) (g_ok : eG R -> Prop) (f_ok : eF R -> Prop) (HR : rnd_ok R g_ok f_ok).

  Lemma igen_m1_0_spec w g : (w = 8 \/ w = 16 \/ w = 32) -> g_ok g ->
    let '(v, g') := igen_m1_0 R g in g_ok g' /\ (wrap_s w v = -1 \/ wrap_s w v = 0).
  Proof.
    intros Hw Hg. unfold igen_m1_0. destruct (g_next R g) as [r g'] eqn:E.
    pose proof (g_next_ok R g_ok f_ok HR g Hg) as [Hr Hg']. rewrite E in *. simpl in *. split; [done|].
    pose proof (Z.mod_pos_bound r 2 ltac:(lia)). assert (r mod 2 = 0 \/ r mod 2 = 1) as [-> | ->] by lia;
      destruct Hw as [->|[->| ->]]; vm_compute; auto.
  Qed.

  (** shape and storage size are constant *)
  Definition same_store (m m' : nmatrix) : Prop := nm_same_shape m m' /\ length (nm_data m') = length (nm_data m).
  Lemma nm_set_store m r c v m' : nm_set m r c v = Ret m' ->
    same_store m m' /\ (nm_offset m r c < length (nm_data m))%nat.
  Proof.
    unfold nm_set, vset. case_decide as Hlt; [|done]. cbn. intros [= <-]. split; [|done].
    split; [by repeat split|]. simpl. by rewrite insert_length.
  Qed.
  Lemma same_store_offset m m' r c : same_store m m' -> nm_offset m' r c = nm_offset m r c.
  Proof. intros [H _]. unfold nm_offset. by rewrite (nm_same_stride m m'). Qed.
  Lemma same_store_trans m1 m2 m3 : same_store m1 m2 -> same_store m2 m3 -> same_store m1 m3.
  Proof. intros [(?&?&?) ?] [(?&?&?) ?]. split; [split_and!|]; congruence. Qed.
  Lemma same_store_refl m : same_store m m. Proof. by repeat split. Qed.

  Lemma classic_init_written w rows cols g m p g' : (0 < rows)%nat -> (w = 8 \/ w = 16 \/ w = 32) ->
    classic_init R w rows cols g = Ret (m, p, g') -> nm_wf (nm_new w rows cols).
  Proof.
    intros Hr Hw E. apply nm_new_wf_written; auto. intros Hc.
    unfold classic_init in E. cbv zeta in E. cbn [nm_new nm_rows nm_cols] in E. fold (nm_new w rows cols) in E.
    set (m0 := nm_new w rows cols) in *.
    match type of E with obind ?o _ = _ => destruct o as [[m1 g1]| | |] eqn:E1; try done end. clear E.
    assert (wp True True (Ret (m1, g1)) (fun '(m, _) => same_store m0 m /\
      (nm_offset m0 (rows - 1) (cols - 1) < length (nm_data m0))%nat)) as Hwp; [|by destruct Hwp].
    rewrite <- E1. eapply wp_mono; [apply (wp_ofor (fun i '(m, _) => same_store m0 m /\
      ((0 < i)%nat -> (nm_offset m0 (i - 1) (cols - 1) < length (nm_data m0))%nat)))|].
    - split; [apply same_store_refl|]. intros; lia.
    - intros i [mi gi] Hi [Hs _]. eapply wp_mono; [apply (wp_ofor (fun k '(m, _) => same_store m0 m /\
        ((0 < k)%nat -> (nm_offset m0 i (k - 1) < length (nm_data m0))%nat)))|].
      + split; [done|]. intros; lia.
      + intros k [mk gk] Hk [Hsk _]. destruct (igen_m1_0 R gk) as [v gk'].
        apply wp_bind. destruct (nm_set mk i k v) as [mk'| | |] eqn:Es; try done.
        apply nm_set_store in Es as [Hs' Hlt]. cbn. split; [by eapply same_store_trans|].
        intros _. replace (k - 0)%nat with k by lia.
        erewrite same_store_offset in Hlt by done. destruct Hsk as [_ El]. by rewrite El in Hlt.
      + intros [mk gk] [Hsk Hk]. split; [done|]. intros _. replace (S i - 1)%nat with i by lia.
        destruct Hs as [(_ & _ & Ec) _]. rewrite Ec in Hk. by apply Hk.
    - intros [mi gi] [Hs Hi]. split; [done|]. apply Hi. lia.
  Qed.

  Lemma bitwise_init_written w rows cols g m p g' : (0 < rows)%nat -> (w = 8 \/ w = 16 \/ w = 32) ->
    bitwise_init R w rows cols g = Ret (m, p, g') ->
    nm_wf (nm_new w rows cols) /\ bm_wf 64 (bm_new 64 rows cols).
  Proof.
    intros Hr Hw E. unfold bitwise_init in E. cbv zeta in E. cbn [nm_new nm_rows nm_cols] in E. fold (nm_new w rows cols) in E.
    set (m0 := nm_new w rows cols) in *. set (p0 := bm_new 64 rows cols) in *.
    match type of E with obind ?o _ = _ => destruct o as [[[m1 p1] g1]| | |] eqn:E1; try done end. clear E.
    set (bsd := fun p : bmatrix => bm_row_blocks p = bm_row_blocks p0 /\ length (bm_data p) = length (bm_data p0)).
    set (inb := fun r c => (nm_offset m0 r c < length (nm_data m0))%nat /\
                           (r * bm_row_blocks p0 + c / 64 < length (bm_data p0))%nat).
    assert (wp True True (Ret (m1, p1, g1)) (fun '(m, p, _) => (0 < cols)%nat -> inb (rows - 1) (cols - 1))%nat) as Hwp.
    { rewrite <- E1. eapply wp_mono; [apply (wp_ofor (fun i '(m, p, _) => same_store m0 m /\ bsd p /\
        ((0 < i)%nat -> (0 < cols)%nat -> inb (i - 1) (cols - 1))%nat))|].
      - split; [apply same_store_refl|]. split; [done|]. intros; lia.
      - intros i [[mi pi] gi] Hi (Hs & Hb & _). eapply wp_mono; [apply (wp_ofor (fun k '(m, p, _) => same_store m0 m /\ bsd p /\
          ((0 < k)%nat -> inb i (k - 1))%nat))|].
        + split; [done|]. split; [done|]. intros; lia.
        + intros k [[mk pk] gk] Hk (Hsk & Hbk & _). destruct (igen_m1_0 R gk) as [v gk'].
          apply wp_bind. destruct (nm_set mk i k v) as [mk'| | |] eqn:Es; try done. cbn [wp].
          apply nm_set_store in Es as [Hs' Hlt].
          apply wp_bind. destruct (nm_get mk' i k) as [st| | |] eqn:Eg; try done. cbn [wp].
          apply wp_bind.
          assert (forall pk', (if 0 <=? st then bm_set 64 pk i k else bm_clear 64 pk i k) = Ret pk' ->
            bsd pk' /\ (i * bm_row_blocks pk + k / 64 < length (bm_data pk))%nat) as Hp.
          { intros pk' Ep.
            assert (exists b, bm_set_block pk i (k / 64) b = Ret pk') as [b Eb].
            { destruct (0 <=? st); unfold bm_set, bm_clear in Ep;
                destruct (bm_block pk i (k / 64)); try done; cbn in Ep; eauto. }
            unfold bm_set_block, vset in Eb. case_decide as Hl; [|done]. cbn in Eb. injection Eb as <-.
            split; [|done]. destruct Hbk as [E3 E4]. split; simpl; [done|]. by rewrite insert_length. }
          destruct (if 0 <=? st then _ else _) as [pk'| | |] eqn:Ep; try done. cbn [wp].
          destruct (Hp pk' eq_refl) as [Hb' Hl]. split; [by eapply same_store_trans|]. split; [done|].
          intros _. replace (S k - 1)%nat with k by lia. split.
          * erewrite same_store_offset in Hlt by done. destruct Hsk as [_ El]. by rewrite El in Hlt.
          * destruct Hbk as [E3 E4]. by rewrite E3, E4 in Hl.
        + intros [[mk pk] gk] (Hsk & Hbk & Hk). split; [done|]. split; [done|]. intros _ Hc.
          replace (S i - 1)%nat with i by lia. destruct Hs as [(_ & _ & Ec) _]. rewrite Ec in Hk. by apply Hk.
      - intros [[mi pi] gi] (Hs & Hb & Hi). apply Hi. lia. }
    cbn [wp] in Hwp. split.
    - apply nm_new_wf_written; auto. intros Hc. by apply Hwp.
    - apply bm_new_wf_written; auto. intros Hc. by apply Hwp.
  Qed.
End Init.
