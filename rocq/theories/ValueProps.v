(** * Properties of programs over containers (C66) *)
From Verif Require Export ValueSpec.
From Verif Require Import Algo Wp ContainersFacts EqualityFacts.

From stdpp Require Import gmap stringmap.
Local Open Scope nat_scope.

(** what variable [x] shows: its header and its elements *)
Definition shows {H C} (w : vworld H C) (x : string) : option (H * list C) :=
  match vw_vars w !! x with
  | Some (h, q) => match velements w q with Ret d => Some (h, d) | _ => None end
  | None => None
  end.
(** every block is owned by exactly one variable, and no variable owns a freed block *)
Definition no_leak {H C} (w : vworld H C) : Prop :=
  (forall a, is_Some (vw_heap w !! a) -> exists x h n, vw_vars w !! x = Some (h, Vec (Some a) n) /\
     forall y h' n', vw_vars w !! y = Some (h', Vec (Some a) n') -> y = x) /\
  (forall x h a n, vw_vars w !! x = Some (h, Vec (Some a) n) -> is_Some (vw_heap w !! a)).
(** the variables a command may change *)
Definition changes {Args Op} (c : vcmd Args Op) (x : string) : Prop :=
  match c with
  | VMake y _ | VCopy y _ | VAssign y _ | VDo y _ | VDestroy y => x = y
  | VMove y z | VMoveAssign y z => x = y \/ x = z
  | VEqual _ _ => False
  end.

Section Programs.
  Context {H C Args Op Res : Type} (K : container H C Args Op Res).
  Context (Hlen : forall h d o r d', member K h d o = Ret (r, d') -> length d' = length d).
  Context (alloc : gmap Z (list C) -> Z) (Halloc : forall h, h !! alloc h = None).

  Lemma owned_shows (w : vworld H C) v x : owned w v -> shows w x = v !! x.
  Proof using.
    intros HO. unfold shows. destruct (owned_var w v x HO) as [(h & q & d & -> & -> & Hq)|[-> ->]]; [|done]. by rewrite (holds_elements _ _ _ Hq).
  Qed.
  Lemma owned_no_leak (w : vworld H C) v : owned w v -> no_leak w.
  Proof using.
    intros HO. pose proof HO as [Hv Ho Hl]. split.
    - intros a Ha. destruct (Hl a Ha) as [x Hx]. pose proof Hx as Hp. unfold ptr in Hx. destruct (vw_vars w !! x) as [[h [s n]]|] eqn:Ex; [|done].
      cbn in Hx. subst s. exists x, h, n. split; [done|]. intros y h' n' Ey. apply (Ho y x a); [|done]. unfold ptr. by rewrite Ey.
    - intros x h a n Ex. apply (ptr_live w v x a HO). unfold ptr. by rewrite Ex.
  Qed.
  Lemma programs_are_values cs : match vexecs K alloc vworld0 cs, vrun K ∅ cs with
    | Ret (rs, w), Ret (rs', v) => rs = rs' /\ (forall x, shows w x = v !! x) /\ no_leak w
    | Throw a, Throw b => a = b
    | UB a, UB b => a = b
    | OutOfFuel, OutOfFuel => True
    | _, _ => False
    end.
  Proof using Hlen Halloc.
    pose proof (vexecs_refines K Hlen alloc Halloc cs vworld0 ∅ owned0) as Q.
    destruct (vexecs K alloc vworld0 cs) as [[rs w]| | |], (vrun K ∅ cs) as [[rs' v]| | |]; cbn [orel] in Q; try done. cbn [fst snd] in Q.
    destruct Q as [-> Q]. split; [done|]. split; [intros x; by apply owned_shows|]. by eapply owned_no_leak.
  Qed.
  (** ** several commands *)
  Lemma vexecs_app cs1 w cs2 : vexecs K alloc w (cs1 ++ cs2) = (let* '(rs1, w1) := vexecs K alloc w cs1 in let* '(rs2, w2) := vexecs K alloc w1 cs2 in Ret (rs1 ++ rs2, w2)).
  Proof using.
    assert (Hacc : forall cs rs w, ofold cs (rs, w) (fun c '(rs, w) => let* '(r, w) := vexec K alloc w c in Ret (rs ++ [r], w)) =
      (let* '(rs', w') := vexecs K alloc w cs in Ret (rs ++ rs', w'))).
    { unfold vexecs. induction cs as [|c cs IH]; intros rs w0; cbn [ofold obind]; [by rewrite app_nil_r|].
      destruct (vexec K alloc w0 c) as [[r w1]| | |]; try done. cbn [obind]. rewrite (IH (rs ++ [r])), (IH ([] ++ [r])).
      destruct (ofold cs ([], w1) _) as [[rs' w']| | |]; try done. cbn [obind]. by rewrite <- app_assoc. }
    revert w. induction cs1 as [|c cs1 IH]; intros w; cbn [app].
    - change (vexecs K alloc w []) with (Ret (@nil (vres Res), w)). cbn [obind]. by destruct (vexecs K alloc w cs2) as [[]| | |].
    - unfold vexecs at 1 2. cbn [ofold]. destruct (vexec K alloc w c) as [[r w1]| | |]; try done. cbn [obind]. rewrite !Hacc, IH.
      destruct (vexecs K alloc w1 cs1) as [[rs1 w2]| | |]; try done. cbn [obind]. by destruct (vexecs K alloc w2 cs2) as [[rs2 w3]| | |].
  Qed.
  Lemma reached cs rs w : vexecs K alloc vworld0 cs = Ret (rs, w) -> exists v, owned w v.
  Proof using Hlen Halloc.
    intros E. pose proof (vexecs_refines K Hlen alloc Halloc cs vworld0 ∅ owned0) as Q. rewrite E in Q.
    destruct (vrun K ∅ cs) as [[rs' v]| | |]; cbn [orel] in Q; try done. exists v. apply Q.
  Qed.
  Lemma vstep_frame v c r v' x : vstep K v c = Ret (r, v') -> ~ changes c x -> v' !! x = v !! x.
  Proof using.
    intros E Hx. destruct c as [y a|y z|y z|y z|y z|y o|y z|y]; cbn [changes] in Hx; unfold vstep, unused, val in E.
    - destruct (v !! y); [done|]. injection E as <- <-. by rewrite lookup_insert_ne.
    - destruct (v !! y); [done|]. destruct (v !! z); [|done]. injection E as <- <-. by rewrite lookup_insert_ne.
    - destruct (v !! y); [done|]. destruct (v !! z); [|done]. injection E as <- <-. rewrite !lookup_insert_ne; [done| |]; intros ->; apply Hx; tauto.
    - destruct (v !! y); [|done]. destruct (v !! z); [|done]. injection E as <- <-. by rewrite lookup_insert_ne.
    - destruct (v !! y); [|done]. destruct (v !! z); [|done]. injection E as <- <-. rewrite !lookup_insert_ne; [done| |]; intros ->; apply Hx; tauto.
    - destruct (v !! y) as [p|]; [|done]. cbn [obind] in E. destruct (member K p.1 p.2 o) as [[r' d]| | |]; try done. injection E as <- <-. by rewrite lookup_insert_ne.
    - destruct (v !! y); [|done]. destruct (v !! z); [|done]. by injection E as <- <-.
    - destruct (v !! y); [|done]. injection E as <- <-. by rewrite lookup_delete_ne.
  Qed.
  Lemma run_frame w v cs rs w' x : owned w v -> vexecs K alloc w cs = Ret (rs, w') -> Forall (fun c => ~ changes c x) cs -> shows w' x = shows w x.
  Proof using Hlen Halloc.
    intros HO E Hx. revert w v HO rs E. induction Hx as [|c cs Hc Hcs IH]; intros w v HO rs E; [by injection E as <- <-|].
    change (c :: cs) with ([c] ++ cs) in E. rewrite vexecs_app in E. apply obind_ret_inv in E as ([rs1 w1] & E1 & E). apply obind_ret_inv in E as ([rs2 w2] & E2 & E).
    injection E as <- <-. unfold vexecs in E1. cbn [ofold] in E1. apply obind_ret_inv in E1 as ([rs3 w3] & E3 & E1). injection E1 as <- <-.
    apply obind_ret_inv in E3 as ([r w4] & E3 & E1). injection E1 as <- <-.
    pose proof (vexec_refines K Hlen alloc Halloc w v c HO) as Q. rewrite E3 in Q. destruct (vstep K v c) as [[r' v']| | |] eqn:Es; cbn [orel] in Q; try done.
    cbn [fst snd] in Q. destruct Q as [-> HO']. rewrite (IH _ _ HO' _ E2). rewrite (owned_shows _ _ x HO'), (owned_shows _ _ x HO). by eapply vstep_frame.
  Qed.
  Lemma independent cs rs w cs' rs' w' x : vexecs K alloc vworld0 cs = Ret (rs, w) -> vexecs K alloc vworld0 (cs ++ cs') = Ret (rs', w') ->
    Forall (fun c => ~ changes c x) cs' -> shows w' x = shows w x.
  Proof using Hlen Halloc.
    intros E E' Hx. destruct (reached _ _ _ E) as [v HO]. rewrite vexecs_app, E in E'. cbn [obind] in E'. apply obind_ret_inv in E' as ([rs2 w2] & E2 & E').
    injection E' as <- <-. by eapply run_frame.
  Qed.
  (** one more command, seen through [shows] *)
  Lemma one_more cs rs w c : vexecs K alloc vworld0 cs = Ret (rs, w) -> exists v, (forall x, shows w x = v !! x) /\
    match vstep K v c with
    | Ret (r, v') => exists w', vexecs K alloc vworld0 (cs ++ [c]) = Ret (rs ++ [r], w') /\ forall x, shows w' x = v' !! x
    | Throw e => vexecs K alloc vworld0 (cs ++ [c]) = Throw e
    | UB k => vexecs K alloc vworld0 (cs ++ [c]) = UB k
    | OutOfFuel => vexecs K alloc vworld0 (cs ++ [c]) = OutOfFuel
    end.
  Proof using Hlen Halloc.
    intros E. destruct (reached _ _ _ E) as [v HO]. exists v. split; [intros x; by apply owned_shows|].
    pose proof (vexec_refines K Hlen alloc Halloc w v c HO) as Q. rewrite vexecs_app, E. cbn [obind]. unfold vexecs. cbn [ofold].
    destruct (vexec K alloc w c) as [[r1 w1]| | |], (vstep K v c) as [[r2 v2]| | |]; cbn [orel] in Q; try done; cbn [obind]; [|by rewrite Q|by rewrite Q].
    cbn [fst snd] in Q. destruct Q as [-> Q]. exists w1. split; [done|]. intros x. by apply owned_shows.
  Qed.
  Notation run cs := (vexecs K alloc vworld0 cs).
  (** a copy shows what the original shows *)
  Lemma copied cs rs w x y a : run cs = Ret (rs, w) -> shows w x = None -> shows w y = Some a ->
    exists w', run (cs ++ [VCopy x y]) = Ret (rs ++ [VNone], w') /\ shows w' x = Some a /\ shows w' y = Some a.
  Proof using Hlen Halloc.
    intros E Ex Ey. destruct (one_more cs rs w (VCopy x y) E) as (v & Hv & Q). unfold vstep, unused, val in Q. rewrite <- !Hv, Ex, Ey in Q. cbn [obind] in Q.
    destruct Q as (w' & E' & Hw). exists w'. split; [done|]. assert (x <> y) by congruence. rewrite !Hw, lookup_insert, lookup_insert_ne, <- Hv by done. done.
  Qed.
  Lemma assigned cs rs w x y a b : run cs = Ret (rs, w) -> shows w x = Some b -> shows w y = Some a ->
    exists w', run (cs ++ [VAssign x y]) = Ret (rs ++ [VNone], w') /\ shows w' x = Some a /\ shows w' y = Some a.
  Proof using Hlen Halloc.
    intros E Ex Ey. destruct (one_more cs rs w (VAssign x y) E) as (v & Hv & Q). unfold vstep, unused, val in Q. rewrite <- !Hv, Ex, Ey in Q. cbn [obind] in Q.
    destruct Q as (w' & E' & Hw). exists w'. split; [done|]. rewrite !Hw, lookup_insert. split; [done|].
    destruct (decide (x = y)) as [->|]; [by rewrite lookup_insert|]. by rewrite lookup_insert_ne, <- Hv by done.
  Qed.
  Lemma moved cs rs w x y a : run cs = Ret (rs, w) -> shows w x = None -> shows w y = Some a ->
    exists w', run (cs ++ [VMove x y]) = Ret (rs ++ [VNone], w') /\ shows w' x = Some a /\ shows w' y = Some (moved_by_ctor K a.1, []).
  Proof using Hlen Halloc.
    intros E Ex Ey. destruct (one_more cs rs w (VMove x y) E) as (v & Hv & Q). unfold vstep, unused, val in Q. rewrite <- !Hv, Ex, Ey in Q. cbn [obind] in Q.
    destruct Q as (w' & E' & Hw). exists w'. split; [done|]. assert (x <> y) by congruence. by rewrite !Hw, lookup_insert, lookup_insert_ne, lookup_insert by done.
  Qed.
  Lemma move_assigned cs rs w x y a b : run cs = Ret (rs, w) -> shows w x = Some b -> shows w y = Some a ->
    exists w', run (cs ++ [VMoveAssign x y]) = Ret (rs ++ [VNone], w') /\ shows w' y = Some (moved_by_assign K a.1, []) /\ (x <> y -> shows w' x = Some a).
  Proof using Hlen Halloc.
    intros E Ex Ey. destruct (one_more cs rs w (VMoveAssign x y) E) as (v & Hv & Q). unfold vstep, unused, val in Q. rewrite <- !Hv, Ex, Ey in Q. cbn [obind] in Q.
    destruct Q as (w' & E' & Hw). exists w'. split; [done|]. rewrite !Hw, lookup_insert. split; [done|]. intros Hn. by rewrite lookup_insert_ne, lookup_insert by done.
  Qed.
  (** std::swap *)
  Lemma swapped cs rs w t x y a b : run cs = Ret (rs, w) -> shows w t = None -> x <> y -> shows w x = Some a -> shows w y = Some b ->
    exists w', run (cs ++ [VMove t x; VMoveAssign x y; VMoveAssign y t; VDestroy t]) = Ret (rs ++ [VNone; VNone; VNone; VNone], w') /\
      shows w' x = Some b /\ shows w' y = Some a /\ forall z, z <> x -> z <> y -> shows w' z = shows w z.
  Proof using Hlen Halloc.
    intros E Et Hxy Ex Ey. assert (t <> x /\ t <> y) as [Htx Hty] by (split; congruence).
    destruct (moved cs rs w t x a E Et Ex) as (w1 & E1 & Et1 & Ex1).
    assert (shows w1 y = Some b) as Ey1.
    { rewrite <- Ey. eapply (independent cs rs w [VMove t x]); [done|exact E1|]. constructor; [cbn; intros [->| ->]; done|done]. }
    destruct (move_assigned _ _ _ x y b _ E1 Ex1 Ey1) as (w2 & E2 & Ey2 & Ex2). specialize (Ex2 Hxy).
    assert (shows w2 t = Some a) as Et2.
    { rewrite <- Et1. eapply (independent _ _ w1 [VMoveAssign x y]); [exact E1|exact E2|]. constructor; [cbn; intros [->| ->]; done|done]. }
    destruct (move_assigned _ _ _ y t a _ E2 Ey2 Et2) as (w3 & E3 & Et3 & Ey3). specialize (Ey3 (not_eq_sym Hty)).
    assert (shows w3 x = Some b) as Ex3.
    { rewrite <- Ex2. eapply (independent _ _ w2 [VMoveAssign y t]); [exact E2|exact E3|]. constructor; [cbn; intros [->| ->]; done|done]. }
    destruct (one_more _ _ _ (VDestroy t) E3) as (v & Hv & Q). unfold vstep, val in Q. rewrite <- Hv, Et3 in Q. cbn [obind] in Q. destruct Q as (w4 & E4 & H4).
    exists w4. rewrite <- !app_assoc in E4. cbn [app] in E4. split; [exact E4|]. rewrite !H4, !lookup_delete_ne, <- !Hv by done. split; [done|]. split; [done|].
    intros z Hzx Hzy. destruct (decide (z = t)) as [->|Hzt]; [by rewrite H4, lookup_delete|].
    eapply (independent cs rs w); [done|exact E4|]. repeat constructor; cbn; intuition congruence.
  Qed.
  (** one more call of a member function *)
  Lemma did cs rs w x a o : run cs = Ret (rs, w) -> shows w x = Some a ->
    match member K a.1 a.2 o with
    | Ret (r, d) => exists w', run (cs ++ [VDo x o]) = Ret (rs ++ [VRes r], w') /\ shows w' x = Some (a.1, d)
    | Throw e => run (cs ++ [VDo x o]) = Throw e
    | UB k => run (cs ++ [VDo x o]) = UB k
    | OutOfFuel => run (cs ++ [VDo x o]) = OutOfFuel
    end.
  Proof using Hlen Halloc.
    intros E Ex. destruct (one_more cs rs w (VDo x o) E) as (v & Hv & Q). unfold vstep, val in Q. rewrite <- Hv, Ex in Q. cbn [obind] in Q.
    destruct (member K a.1 a.2 o) as [[r d]| | |] eqn:Em; cbn [obind] in Q; [|done|done|done].
    destruct Q as (w' & E' & Hw). exists w'. split; [done|]. by rewrite Hw, lookup_insert.
  Qed.
  Lemma compared cs rs w x y a b : run cs = Ret (rs, w) -> shows w x = Some a -> shows w y = Some b ->
    exists w', run (cs ++ [VEqual x y]) = Ret (rs ++ [VBool (equal K a b)], w').
  Proof using Hlen Halloc.
    intros E Ex Ey. destruct (one_more cs rs w (VEqual x y) E) as (v & Hv & Q). unfold vstep, val in Q. rewrite <- !Hv, Ex, Ey in Q. cbn [obind] in Q.
    destruct Q as (w' & E' & _). eauto.
  Qed.
  (** all variables out of scope: all memory is free *)
  Lemma all_free cs rs w : run cs = Ret (rs, w) -> (forall x, shows w x = None) -> vw_heap w = ∅.
  Proof using Hlen Halloc.
    intros E Hn. destruct (reached _ _ _ E) as [v HO]. apply map_empty. intros a. destruct (vw_heap w !! a) eqn:Ea; [|done].
    destruct (owned_no_leak _ _ HO) as [L _]. destruct (L a ltac:(eauto)) as (x & h & n & Ex & _).
    pose proof (owned_shows w v x HO) as Q. rewrite Hn in Q. destruct (owned_var w v x HO) as [(h' & q & d & _ & Vx & _)|[Ex' _]]; congruence.
  Qed.
End Programs.

(** ** The three containers *)
Lemma vset_length {A} (l : list A) i x l' : vset l i x = Ret l' -> length l' = length l.
Proof. unfold vset. case_decide; [|done]. intros E. injection E as <-. apply insert_length. Qed.
Lemma nm_member_length w h d o r d' : nm_member w h d o = Ret (r, d') -> length d' = length d.
Proof.
  destruct o; cbn [nm_member]; intros E; [by injection E as <- <-| |].
  - apply obind_ret_inv in E as (? & _ & E). by injection E as <- <-.
  - apply obind_ret_inv in E as (m & Em & E). injection E as <- <-. unfold nm_set in Em. apply obind_ret_inv in Em as (l & El & Em). injection Em as <-. by eapply vset_length.
Qed.
Lemma bm_set_block_length m r k b m' : bm_set_block m r k b = Ret m' -> length (bm_data m') = length (bm_data m).
Proof. unfold bm_set_block. intros E. apply obind_ret_inv in E as (l & El & E). injection E as <-. by eapply vset_length. Qed.
Lemma bm_member_length W h d o r d' : bm_member W h d o = Ret (r, d') -> length d' = length d.
Proof.
  destruct o; cbn [bm_member]; intros E; [by injection E as <- <-| | | |].
  - apply obind_ret_inv in E as (? & _ & E). by injection E as <- <-.
  - apply obind_ret_inv in E as (m & Em & E). injection E as <- <-. unfold bm_set in Em. apply obind_ret_inv in Em as (b & _ & Em). by apply bm_set_block_length in Em.
  - apply obind_ret_inv in E as (m & Em & E). injection E as <- <-. unfold bm_clear in Em. apply obind_ret_inv in Em as (b & _ & Em). by apply bm_set_block_length in Em.
  - apply obind_ret_inv in E as (m & Em & E). injection E as <- <-. unfold bm_flip in Em. apply obind_ret_inv in Em as (b & _ & Em). by apply bm_set_block_length in Em.
Qed.
Lemma bv_member_length W h d o r d' : bv_member W h d o = Ret (r, d') -> length d' = length d.
Proof.
  destruct o; cbn [bv_member]; intros E; [by injection E as <- <-| | | | | |].
  - apply obind_ret_inv in E as (? & _ & E). by injection E as <- <-.
  - apply obind_ret_inv in E as (m & Em & E). injection E as <- <-. unfold bv_set in Em. apply obind_ret_inv in Em as (b & _ & Em). apply obind_ret_inv in Em as (l & El & Em). injection Em as <-. by eapply vset_length.
  - apply obind_ret_inv in E as (m & Em & E). injection E as <- <-. unfold bv_clear in Em. apply obind_ret_inv in Em as (b & _ & Em). apply obind_ret_inv in Em as (l & El & Em). injection Em as <-. by eapply vset_length.
  - apply obind_ret_inv in E as (m & Em & E). injection E as <- <-. unfold bv_flip in Em. apply obind_ret_inv in Em as (b & _ & Em). apply obind_ret_inv in Em as (l & El & Em). injection Em as <-. by eapply vset_length.
  - apply obind_ret_inv in E as (m & Em & E). injection E as <- <-. unfold bv_assign, bv_set, bv_clear in Em. destruct b;
      apply obind_ret_inv in Em as (b & _ & Em); apply obind_ret_inv in Em as (l & El & Em); injection Em as <-; by eapply vset_length.
  - apply obind_ret_inv in E as (m & Em & E). injection E as <- <-. unfold bv_XOR in Em. apply obind_ret_inv in Em as (q & _ & Em). apply obind_ret_inv in Em as (l & El & Em). injection Em as <-. by eapply vset_length.
Qed.

(** "a container of Tsetlini": [W] is the number of bits of an element *)
Inductive tsetlini_container : forall {H C Args Op Res}, container H C Args Op Res -> Prop :=
| numeric_matrix w : tsetlini_container (nm_container w)
| bit_matrix_ W : tsetlini_container (bm_container W)
| bit_vector_ W : tsetlini_container (bv_container W).
Lemma tsetlini_length {H C Args Op Res} (K : container H C Args Op Res) : tsetlini_container K ->
  forall h d o r d', member K h d o = Ret (r, d') -> length d' = length d.
Proof. intros []; [apply nm_member_length|apply bm_member_length|apply bv_member_length]. Qed.
Lemma moved_from_numeric : forall bits alloc, (forall h, h !! alloc h = None) -> let K := nm_container bits in
  forall cs rs w x y a c, vexecs K alloc vworld0 cs = Ret (rs, w) -> shows w y = Some a ->
  (c = VMove x y /\ shows w x = None \/ c = VMoveAssign x y /\ shows w x <> None) ->
  exists w', vexecs K alloc vworld0 (cs ++ [c]) = Ret (rs ++ [VNone], w') /\ shows w' y = Some ((0, 0), []) /\
    forall b, b = make K None -> equal K ((0, 0), []) b = true.
Proof.
  intros bits alloc Ha K cs rs w x y a c E Ey Hc. pose proof (tsetlini_length K (numeric_matrix bits)) as HL. destruct Hc as [[-> Ex]|[-> Ex]].
  - destruct (moved K HL alloc Ha cs rs w x y a E Ex Ey) as (w' & E' & _ & Hy). exists w'. repeat split; [exact E'|exact Hy|]. intros b ->. unfold K; cbn; unfold nm_eqb; cbn. by rewrite Z.eqb_refl.
  - destruct (shows w x) as [b|] eqn:Ex'; [|done]. destruct (move_assigned K HL alloc Ha cs rs w x y a b E Ex' Ey) as (w' & E' & Hy & _). exists w'. repeat split; [exact E'|exact Hy|].
    intros b' ->. unfold K; cbn; unfold nm_eqb; cbn. by rewrite Z.eqb_refl.
Qed.
Lemma moved_from_bits : forall W alloc, (forall h, h !! alloc h = None) -> let K := bm_container W in
  forall cs rs w x y a c, vexecs K alloc vworld0 cs = Ret (rs, w) -> shows w y = Some a ->
  (c = VMove x y /\ shows w x = None \/ c = VMoveAssign x y /\ shows w x <> None) ->
  exists w' k, vexecs K alloc vworld0 (cs ++ [c]) = Ret (rs ++ [VNone], w') /\ shows w' y = Some ((0, 0, k), []) /\
    forall b, b = make K None -> equal K ((0, 0, k), []) b = true.
Proof.
  intros W alloc Ha K cs rs w x y a c E Ey Hc. pose proof (tsetlini_length K (bit_matrix_ W)) as HL. destruct Hc as [[-> Ex]|[-> Ex]].
  - destruct (moved K HL alloc Ha cs rs w x y a E Ex Ey) as (w' & E' & _ & Hy). exists w', a.1.2. repeat split; [exact E'|exact Hy|]. by intros b ->.
  - destruct (shows w x) as [b|] eqn:Ex'; [|done]. destruct (move_assigned K HL alloc Ha cs rs w x y a b E Ex' Ey) as (w' & E' & Hy & _). exists w', 0. repeat split; [exact E'|exact Hy|].
    by intros b' ->.
Qed.
Lemma moved_from_bit_vector : forall W alloc, (forall h, h !! alloc h = None) -> let K := bv_container W in
  forall cs rs w x y n d i, vexecs K alloc vworld0 cs = Ret (rs, w) -> shows w x = None -> shows w y = Some (n, d) ->
  exists w', vexecs K alloc vworld0 (cs ++ [VMove x y; VDo y VSize]) = Ret (rs ++ [VNone; VRes (VRSize n)], w') /\
    forall o, o ∈ [VTest i; VSet i; VClear i; VFlip i; VPut i true; VPut i false; VXor i true; VXor i false] ->
      vexecs K alloc vworld0 (cs ++ [VMove x y; VDo y o]) = UB OutOfBounds.
Proof.
  intros W alloc Ha K cs rs w x y n d i E Ex Ey. pose proof (tsetlini_length K (bit_vector_ W)) as HL.
  destruct (moved K HL alloc Ha cs rs w x y (n, d) E Ex Ey) as (w1 & E1 & _ & Hy).
  pose proof (fun o => did K HL alloc Ha (cs ++ [VMove x y]) (rs ++ [VNone]) w1 y (n, []) o E1 Hy) as D.
  destruct (D VSize) as (w2 & E2 & _). exists w2. rewrite <- !app_assoc in E2. split; [exact E2|].
  intros o Ho. specialize (D o). rewrite <- app_assoc in D. rewrite !elem_of_cons, elem_of_nil in Ho.
  destruct_or! Ho; try done; subst o; exact D.
Qed.
Lemma copies : forall H C Args Op Res (K : container H C Args Op Res), tsetlini_container K ->
  forall alloc, (forall h, h !! alloc h = None) -> forall cs rs w x y a, vexecs K alloc vworld0 cs = Ret (rs, w) -> shows w y = Some a ->
  (shows w x = None -> exists w', vexecs K alloc vworld0 (cs ++ [VCopy x y]) = Ret (rs ++ [VNone], w') /\ shows w' x = Some a /\ shows w' y = Some a) /\
  (forall b, shows w x = Some b -> exists w', vexecs K alloc vworld0 (cs ++ [VAssign x y]) = Ret (rs ++ [VNone], w') /\ shows w' x = Some a /\ shows w' y = Some a).
Proof.
  intros H C Args Op Res K HK alloc Ha cs rs w x y a E Ey. split; [intros Ex|intros b Ex].
  - exact (copied K (tsetlini_length K HK) alloc Ha cs rs w x y a E Ex Ey).
  - exact (assigned K (tsetlini_length K HK) alloc Ha cs rs w x y a b E Ex Ey).
Qed.
Lemma moves : forall H C Args Op Res (K : container H C Args Op Res), tsetlini_container K ->
  forall alloc, (forall h, h !! alloc h = None) -> forall cs rs w x y a, vexecs K alloc vworld0 cs = Ret (rs, w) -> shows w y = Some a ->
  (shows w x = None -> exists w', vexecs K alloc vworld0 (cs ++ [VMove x y]) = Ret (rs ++ [VNone], w') /\ shows w' x = Some a) /\
  (forall b, shows w x = Some b -> x <> y -> exists w', vexecs K alloc vworld0 (cs ++ [VMoveAssign x y]) = Ret (rs ++ [VNone], w') /\ shows w' x = Some a).
Proof.
  intros H C Args Op Res K HK alloc Ha cs rs w x y a E Ey. split; [intros Ex|intros b Ex Hxy].
  - destruct (moved K (tsetlini_length K HK) alloc Ha cs rs w x y a E Ex Ey) as (w' & E' & Hx & _). exact (ex_intro _ w' (conj E' Hx)).
  - destruct (move_assigned K (tsetlini_length K HK) alloc Ha cs rs w x y a b E Ex Ey) as (w' & E' & _ & Hx). exact (ex_intro _ w' (conj E' (Hx Hxy))).
Qed.
Lemma self_move : forall H C Args Op Res (K : container H C Args Op Res), tsetlini_container K ->
  forall alloc, (forall h, h !! alloc h = None) -> forall cs rs w x h d, vexecs K alloc vworld0 cs = Ret (rs, w) -> shows w x = Some (h, d) ->
  exists w' h', vexecs K alloc vworld0 (cs ++ [VMoveAssign x x]) = Ret (rs ++ [VNone], w') /\ shows w' x = Some (h', []).
Proof.
  intros H C Args Op Res K HK alloc Ha cs rs w x h d E Ex.
  destruct (move_assigned K (tsetlini_length K HK) alloc Ha cs rs w x x (h, d) (h, d) E Ex Ex) as (w' & E' & Hx & _). exact (ex_intro _ w' (ex_intro _ _ (conj E' Hx))).
Qed.
(** the validation of bitwise inputs, given a moved-from bit vector *)
Lemma moved_from_input n : 1 <= n -> bitwise_pad (BV n []) = UB BadShift.
Proof.
  intros Hn. unfold bitwise_pad, bv_capacity_blocks. cbn [bv_len bv_blocks length]. rewrite (proj2 (Z.eqb_neq _ 0)) by lia. cbn [negb].
  rewrite (proj2 (Z.leb_le 64 _)) by lia. by rewrite orb_true_r.
Qed.
