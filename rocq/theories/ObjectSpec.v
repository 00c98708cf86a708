(** * Specification of estimator objects as values, independent of pointers; and the proof that the objects behave so. *)
From Verif Require Export Objects.
From stdpp Require Import gmap stringmap.
Local Open Scope Z_scope.

Section Spec.
  Context {St Op Res SOp SRes : Type}.
  Context (fresh_state : params -> St) (call : St -> Op -> outcome (Res * St)) (sop : St -> SOp -> outcome (SRes * St)).
  Context (read : St -> params).
  Notation cmd := (cmd Op SOp).
  Notation cres := (cres Res SRes).
  (** every variable holds its own estimator value; a variable holds none before it is created and after it was moved from or destroyed *)
  Notation values := (stringmap St).
  Definition value_of (v : values) (x : string) : outcome St :=
    match v !! x with Some s => Ret s | None => UB EmptyDeref end.
  Definition vstep (v : values) (c : cmd) : outcome (cres * values) :=
    match c with
    | Create x p => Ret (RVoid, <[x := fresh_state p]> v)
    | CloneState x y | FromState x y => let* s := value_of v y in Ret (RVoid, <[x := s]> v)
    | Move x y => Ret (RVoid, if decide (x = y) then v else partial_alter (fun _ => v !! y) x (delete y v))
    | Call x o => let* s := value_of v x in let* '(r, s) := call s o in Ret (RCall r, <[x := s]> v)
    | ReadParams x => let* s := value_of v x in Ret (RParams (read s), v)
    | OnState x o => let* s := value_of v x in let* '(r, s) := sop s o in Ret (RState r, <[x := s]> v)
    | Destroy x => Ret (RVoid, delete x v)
    end.
  Definition vrun (v : values) (cs : list cmd) : outcome (list cres * values) :=
    ofold cs ([], v) (fun c '(rs, v) => let* '(r, v) := vstep v c in Ret (rs ++ [r], v)).
End Spec.

Section Refine.
  Context {St Op Res SOp SRes : Type}.
  Context (fresh_state : params -> St) (call : St -> Op -> outcome (Res * St)) (sop : St -> SOp -> outcome (SRes * St)).
  Context (read : St -> params).
  Context (alloc : gmap Z St -> Z) (Halloc : forall h, h !! alloc h = None).
  Notation world := (world St).
  Notation values := (stringmap St).
  Notation exec := (exec fresh_state call sop read alloc).
  Notation execs := (execs fresh_state call sop read alloc).
  Notation vstep := (vstep fresh_state call sop read).
  Notation vrun := (vrun fresh_state call sop read).

  (** every state has exactly one owner, and the owners' states are the values *)
  Record owns (w : world) (v : values) : Prop := {
    ow_val : forall x, (w_ptr w !! x ≫= fun a => w_heap w !! a) = v !! x;
    ow_live : forall x a, w_ptr w !! x = Some a -> is_Some (w_heap w !! a);
    ow_one : forall x y a, w_ptr w !! x = Some a -> w_ptr w !! y = Some a -> x = y;
    ow_leak : forall a, is_Some (w_heap w !! a) -> exists x, w_ptr w !! x = Some a }.

  Definition orel2 {A B} (Q : A -> B -> Prop) (o1 : outcome A) (o2 : outcome B) : Prop :=
    match o1, o2 with
    | Ret a, Ret b => Q a b
    | Throw a, Throw b => a = b
    | UB a, UB b => a = b
    | OutOfFuel, OutOfFuel => True
    | _, _ => False
    end.

  Lemma owns_deref w v x : owns w v -> match deref w x with Ret (a, s) => w_ptr w !! x = Some a /\ w_heap w !! a = Some s /\ v !! x = Some s | UB k => k = EmptyDeref /\ v !! x = None | _ => False end.
  Proof.
    intros [Hv Hl _ _]. unfold deref. specialize (Hv x). destruct (w_ptr w !! x) as [a|] eqn:E; cbn [w_ptr w_heap mbind option_bind fst snd] in Hv; [|done].
    destruct (Hl x a E) as [s Hs]. rewrite Hs in Hv |- *. done.
  Qed.

  (** replacing the owner's state *)
  Lemma owns_update w v x a s : owns w v -> w_ptr w !! x = Some a -> owns (World (w_ptr w) (<[a := s]> (w_heap w))) (<[x := s]> v).
  Proof using.
    intros [Hv Hl Ho Hk] E. split; cbn [w_ptr w_heap mbind option_bind fst snd].
    - intros y. destruct (decide (y = x)) as [->|Hy].
      + rewrite E. cbn [w_ptr w_heap mbind option_bind fst snd]. by rewrite !lookup_insert.
      + rewrite lookup_insert_ne by done. rewrite <- Hv. destruct (w_ptr w !! y) as [b|] eqn:Eb; [cbn [w_ptr w_heap mbind option_bind fst snd]|done].
        rewrite lookup_insert_ne; [done|]. intros ->. exact (Hy (Ho y x b Eb E)).
    - intros y b Eb. destruct (decide (b = a)) as [->|]; [rewrite lookup_insert; eauto|rewrite lookup_insert_ne by done; eauto].
    - exact Ho.
    - intros b Hb. destruct (decide (b = a)) as [->|]; [eauto|]. rewrite lookup_insert_ne in Hb by done. eauto.
  Qed.

  (** a new state moved into a variable, whose old state is deleted *)
  Lemma owns_new w v x s : owns w v ->
    exists w', reset (new_state alloc w s).2 x (Some (new_state alloc w s).1) = Ret w' /\ owns w' (<[x := s]> v).
  Proof using Halloc.
    intros [Hv Hl Ho Hk]. unfold new_state, reset. cbn [w_ptr w_heap mbind option_bind fst snd]. set (a := alloc (w_heap w)). pose proof (Halloc (w_heap w)) as Ha. fold a in Ha. clearbody a.
    assert (Hp : forall y, w_ptr w !! y <> Some a). { intros y Ey. destruct (Hl y a Ey) as [t Ht]. congruence. }
    assert (Hal : forall y, partial_alter (fun _ => Some a) x (w_ptr w) !! y = if decide (y = x) then Some a else w_ptr w !! y).
    { intros y. case_decide as Hy; [rewrite Hy; apply lookup_partial_alter|by apply lookup_partial_alter_ne]. }
    destruct (w_ptr w !! x) as [b|] eqn:Ex.
    - assert (b <> a) by (intros ->; exact (Hp x Ex)). unfold Objects.delete. cbn [w_ptr w_heap mbind option_bind fst snd]. destruct (Hl x b Ex) as [t Ht].
      rewrite lookup_insert_ne, Ht by done. eexists; split; [done|]. split; cbn [w_ptr w_heap mbind option_bind fst snd].
      + intros y. rewrite Hal. case_decide as Hy; [rewrite Hy|].
        * cbn [w_ptr w_heap mbind option_bind fst snd]. by rewrite lookup_delete_ne, !lookup_insert by done.
        * rewrite lookup_insert_ne by done. rewrite <- Hv. destruct (w_ptr w !! y) as [c|] eqn:Ey; [cbn [w_ptr w_heap mbind option_bind fst snd]|done].
          rewrite lookup_delete_ne, lookup_insert_ne; [done| |]; intros ->; [exact (Hp y Ey)|exact (Hy (Ho y x c Ey Ex))].
      + intros y c. rewrite Hal. case_decide as Hy; intros Hc.
        * injection Hc as <-. rewrite lookup_delete_ne, lookup_insert by done. eauto.
        * rewrite lookup_delete_ne, lookup_insert_ne; [eauto| |]; intros ->; [exact (Hp y Hc)|exact (Hy (Ho y x c Hc Ex))].
      + intros y z c. rewrite !Hal. do 2 case_decide; intros K1 K2; subst; try done.
        * injection K1 as <-. destruct (Hp _ K2). * injection K2 as <-. destruct (Hp _ K1). * eauto.
      + intros c [t' Hc]. destruct (decide (c = a)) as [->|Hca]; [exists x; rewrite Hal, decide_True; done|].
        apply lookup_delete_Some in Hc as [Hcb Hc]. rewrite lookup_insert_ne in Hc by done. destruct (Hk c) as [y Hy]; [eauto|].
        exists y. rewrite Hal, decide_False; [done|]. intros ->. congruence.
    - eexists; split; [done|]. split; cbn [w_ptr w_heap mbind option_bind fst snd].
      + intros y. rewrite Hal. case_decide as Hy; [rewrite Hy|].
        * cbn [w_ptr w_heap mbind option_bind fst snd]. by rewrite !lookup_insert.
        * rewrite lookup_insert_ne by done. rewrite <- Hv. destruct (w_ptr w !! y) as [c|] eqn:Ey; [cbn [w_ptr w_heap mbind option_bind fst snd]|done].
          rewrite lookup_insert_ne; [done|]. intros ->. exact (Hp y Ey).
      + intros y c. rewrite Hal. case_decide as Hy; intros Hc.
        * injection Hc as <-. rewrite lookup_insert. eauto.
        * rewrite lookup_insert_ne; [eauto|]. intros ->; exact (Hp y Hc).
      + intros y z c. rewrite !Hal. do 2 case_decide; intros K1 K2; subst; try done.
        * injection K1 as <-. destruct (Hp _ K2). * injection K2 as <-. destruct (Hp _ K1). * eauto.
      + intros c [t' Hc]. destruct (decide (c = a)) as [->|Hca]; [exists x; rewrite Hal, decide_True; done|].
        rewrite lookup_insert_ne in Hc by done. destruct (Hk c) as [y Hy]; [eauto|].
        exists y. rewrite Hal, decide_False; [done|]. intros ->. congruence.
  Qed.

  (** a variable loses its state *)
  Lemma owns_destroy w v x : owns w v -> exists w', reset w x None = Ret w' /\ owns w' (delete x v).
  Proof using.
    intros [Hv Hl Ho Hk]. unfold reset. 
    assert (Hal : forall y, partial_alter (fun _ => None) x (w_ptr w) !! y = if decide (y = x) then None else w_ptr w !! y).
    { intros y. case_decide as Hy; [rewrite Hy; apply lookup_partial_alter|by apply lookup_partial_alter_ne]. }
    destruct (w_ptr w !! x) as [b|] eqn:Ex.
    - unfold Objects.delete. cbn [w_ptr w_heap mbind option_bind fst snd]. destruct (Hl x b Ex) as [t Ht]. rewrite Ht. eexists; split; [done|]. split; cbn [w_ptr w_heap mbind option_bind fst snd].
      + intros y. rewrite Hal. case_decide as Hy; [rewrite Hy; by rewrite lookup_delete|]. rewrite lookup_delete_ne by done.
        rewrite <- Hv. destruct (w_ptr w !! y) as [c|] eqn:Ey; [cbn [w_ptr w_heap mbind option_bind fst snd]|done]. rewrite lookup_delete_ne; [done|]. intros ->. exact (Hy (Ho y x c Ey Ex)).
      + intros y c. rewrite Hal. case_decide as Hy; intros Hc; [done|]. rewrite lookup_delete_ne; [eauto|]. intros ->. exact (Hy (Ho y x c Hc Ex)).
      + intros y z c. rewrite !Hal. do 2 case_decide; intros K1 K2; try done. eauto.
      + intros c [t' Hc]. apply lookup_delete_Some in Hc as [Hcb Hc]. destruct (Hk c) as [y Hy]; [eauto|]. exists y.
        rewrite Hal, decide_False; [done|]. intros ->. congruence.
    - eexists; split; [done|]. split; cbn [w_ptr w_heap mbind option_bind fst snd].
      + intros y. rewrite Hal. case_decide as Hy; [rewrite Hy; by rewrite lookup_delete|]. by rewrite lookup_delete_ne, <- Hv.
      + intros y c. rewrite Hal. case_decide as Hy; intros Hc; [done|]. eauto.
      + intros y z c. rewrite !Hal. do 2 case_decide; intros K1 K2; try done. eauto.
      + intros c Hc. destruct (Hk c Hc) as [y Hy]. exists y. rewrite Hal, decide_False; [done|]. intros ->. congruence.
  Qed.

  Lemma owns_move w v x y : owns w v ->
    exists w', reset (release w y).2 x (release w y).1 = Ret w' /\ owns w' (if decide (x = y) then v else partial_alter (fun _ => v !! y) x (delete y v)).
  Proof using.
    intros HO. unfold release. cbn [w_ptr w_heap mbind option_bind fst snd]. case_decide as Hxy.
    - subst y. unfold reset. cbn [w_ptr w_heap mbind option_bind fst snd]. rewrite lookup_delete. eexists; split; [done|].
      assert (E : partial_alter (fun _ => w_ptr w !! x) x (base.delete x (w_ptr w)) = w_ptr w).
      { apply map_eq. intros z. destruct (decide (z = x)) as [->|Hz]; [by rewrite lookup_partial_alter|]. by rewrite lookup_partial_alter_ne, lookup_delete_ne by done. }
      rewrite E. destruct w. exact HO.
    - destruct HO as [Hv Hl Ho Hk]. unfold reset. cbn [w_ptr w_heap mbind option_bind fst snd]. rewrite lookup_delete_ne by done.
      set (p := partial_alter _ _ _).
      assert (Hal : forall z, p !! z = if decide (z = x) then w_ptr w !! y else if decide (z = y) then None else w_ptr w !! z).
      { intros z. unfold p. case_decide as Hz; [rewrite Hz; apply lookup_partial_alter|]. rewrite lookup_partial_alter_ne by done.
        case_decide as Hz2; [rewrite Hz2; apply lookup_delete|by apply lookup_delete_ne]. }
      clearbody p.
      assert (Hvl : forall z, partial_alter (fun _ => v !! y) x (delete y v) !! z = if decide (z = x) then v !! y else if decide (z = y) then None else v !! z).
      { intros z. case_decide as Hz; [rewrite Hz; apply lookup_partial_alter|]. rewrite lookup_partial_alter_ne by done.
        case_decide as Hz2; [rewrite Hz2; apply lookup_delete|by apply lookup_delete_ne]. }
      destruct (w_ptr w !! x) as [b|] eqn:Ex.
      + unfold Objects.delete. cbn [w_ptr w_heap mbind option_bind fst snd]. destruct (Hl x b Ex) as [t Ht]. rewrite Ht. eexists; split; [done|]. split; cbn [w_ptr w_heap mbind option_bind fst snd].
        * intros z. rewrite Hal, Hvl. case_decide as Hz; [|case_decide as Hz2; [done|]]; rewrite <- Hv.
          -- destruct (w_ptr w !! y) as [c|] eqn:Ey; [cbn [w_ptr w_heap mbind option_bind fst snd]|done]. rewrite lookup_delete_ne; [done|]. intros ->. exact (Hxy (Ho x y c Ex Ey)).
          -- destruct (w_ptr w !! z) as [c|] eqn:Ez; [cbn [w_ptr w_heap mbind option_bind fst snd]|done]. rewrite lookup_delete_ne; [done|]. intros ->. exact (Hz (Ho z x c Ez Ex)).
        * intros z c. rewrite Hal. case_decide as Hz; [|case_decide as Hz2; [done|]]; intros Hc; (rewrite lookup_delete_ne; [eauto|]); intros ->.
          -- exact (Hxy (Ho x y c Ex Hc)). -- exact (Hz (Ho z x c Hc Ex)).
        * intros z z' c. rewrite !Hal. repeat case_decide; intros H1' H2'; try done; subst; eauto.
          all: exfalso; first [match goal with H : _ <> _ |- _ => exact (H (Ho _ _ c H1' H2')) end|match goal with H : _ <> _ |- _ => exact (H (Ho _ _ c H2' H1')) end].
        * intros c [t' Hc]. apply lookup_delete_Some in Hc as [Hcb Hc]. destruct (Hk c) as [z Hz]; [eauto|].
          destruct (decide (z = y)) as [->|Hzy]; [exists x; by rewrite Hal, decide_True|]. exists z. rewrite Hal, !decide_False; [done|done|]. intros ->. congruence.
      + eexists; split; [done|]. split; cbn [w_ptr w_heap mbind option_bind fst snd].
        * intros z. rewrite Hal, Hvl. case_decide as Hz; [|case_decide as Hz2; [done|]]; by rewrite <- Hv.
        * intros z c. rewrite Hal. case_decide as Hz; [|case_decide as Hz2; [done|]]; eauto.
        * intros z z' c. rewrite !Hal. repeat case_decide; intros H1' H2'; try done; subst; eauto.
          all: exfalso; first [match goal with H : _ <> _ |- _ => exact (H (Ho _ _ c H1' H2')) end|match goal with H : _ <> _ |- _ => exact (H (Ho _ _ c H2' H1')) end].
        * intros c Hc. destruct (Hk c Hc) as [z Hz].
          destruct (decide (z = y)) as [->|Hzy]; [exists x; by rewrite Hal, decide_True|]. exists z. rewrite Hal, !decide_False; [done|done|]. intros ->. congruence.
  Qed.

  Lemma exec_refines w v c : owns w v -> orel2 (fun r1 r2 => r1.1 = r2.1 /\ owns r1.2 r2.2) (exec w c) (vstep v c).
  Proof using Halloc.
    intros HO. destruct c as [x p|q x|x q|x y|x o|x|q o|x]; unfold Objects.exec, ObjectSpec.vstep.
    - destruct (owns_new w v x (fresh_state p) HO) as (w' & E & H). destruct (new_state alloc w (fresh_state p)) as [a w1]. cbn [fst snd] in E. rewrite E. done.
    - pose proof (owns_deref w v x HO) as D. unfold value_of. destruct (deref w x) as [[a s]| | |]; try done; cbn [obind].
      + destruct D as (_ & _ & ->). cbn [obind]. destruct (owns_new w v q s HO) as (w' & E & H). destruct (new_state alloc w s) as [b w1]. cbn [fst snd] in E. by rewrite E.
      + destruct D as [-> ->]. done.
    - pose proof (owns_deref w v q HO) as D. unfold value_of. destruct (deref w q) as [[a s]| | |]; try done; cbn [obind].
      + destruct D as (_ & _ & ->). cbn [obind]. destruct (owns_new w v x s HO) as (w' & E & H). destruct (new_state alloc w s) as [b w1]. cbn [fst snd] in E. by rewrite E.
      + destruct D as [-> ->]. done.
    - destruct (owns_move w v x y HO) as (w' & E & H). destruct (release w y) as [a w1]. cbn [fst snd] in E. by rewrite E.
    - pose proof (owns_deref w v x HO) as D. unfold value_of. destruct (deref w x) as [[a s]| | |]; try done; cbn [obind].
      + destruct D as (Ea & _ & ->). cbn [obind]. destruct (call s o) as [[r s']| | |]; try done. cbn [obind]. split; [done|]. by apply owns_update.
      + destruct D as [-> ->]. done.
    - pose proof (owns_deref w v x HO) as D. unfold value_of. destruct (deref w x) as [[a s]| | |]; try done; cbn [obind].
      + destruct D as (_ & _ & ->). done.
      + destruct D as [-> ->]. done.
    - pose proof (owns_deref w v q HO) as D. unfold value_of. destruct (deref w q) as [[a s]| | |]; try done; cbn [obind].
      + destruct D as (Ea & _ & ->). cbn [obind]. destruct (sop s o) as [[r s']| | |]; try done. cbn [obind]. split; [done|]. by apply owns_update.
      + destruct D as [-> ->]. done.
    - destruct (owns_destroy w v x HO) as (w' & E & H). by rewrite E.
  Qed.

  Lemma execs_refines_from cs : forall rs w v, owns w v -> orel2 (fun r1 r2 => r1.1 = r2.1 /\ owns r1.2 r2.2)
    (ofold cs (rs, w) (fun c '(rs, w) => let* '(r, w) := exec w c in Ret (rs ++ [r], w)))
    (ofold cs (rs, v) (fun c '(rs, v) => let* '(r, v) := vstep v c in Ret (rs ++ [r], v))).
  Proof using Halloc.
    induction cs as [|c cs IH]; intros rs w v HO; cbn [ofold]; [done|].
    pose proof (exec_refines w v c HO) as H.
    destruct (exec w c) as [[r1 w1]| | |], (vstep v c) as [[r2 v1]| | |]; try done; cbn [obind orel2] in *. 1: destruct H as [H1 H2]; cbn in H1; subst; by apply IH.
    all: by subst.
  Qed.
  Lemma execs_refines cs w v : owns w v -> orel2 (fun r1 r2 => r1.1 = r2.1 /\ owns r1.2 r2.2) (execs w cs) (vrun v cs).
  Proof using Halloc. apply execs_refines_from. Qed.
  Lemma owns0 : owns world0 ∅.
  Proof using.
    split.
    - intros x. change (w_ptr world0) with (∅ : stringmap Z). by rewrite !lookup_empty.
    - intros x a H. change (w_ptr world0) with (∅ : stringmap Z) in H. rewrite lookup_empty in H. done.
    - intros x y a H. change (w_ptr world0) with (∅ : stringmap Z) in H. rewrite lookup_empty in H. done.
    - intros a [s H]. change (w_heap world0) with (∅ : gmap Z St) in H. rewrite lookup_empty in H. done.
  Qed.
End Refine.

(** ** Calls on several estimators: each sees its own calls only *)
Section Calls.
  Context {St Op Res SOp SRes : Type}.
  Context (fresh_state : params -> St) (call : St -> Op -> outcome (Res * St)) (sop : St -> SOp -> outcome (SRes * St)).
  Context (read : St -> params).
  Notation vstep := (vstep fresh_state call sop read).
  Notation vrun := (vrun fresh_state call sop read).
  (** the calls [os], each with the variable it is made on, as a program *)
  Definition as_cmds (os : list (string * Op)) : list (cmd Op SOp) := map (fun '(x, o) => Call x o) os.
  (** the part of a list that belongs to [x] *)
  Definition part {B} (x : string) (l : list (string * B)) : list B := map snd (filter (fun c => c.1 = x) l).
  (** successive calls on one estimator *)
  Definition calls (s : St) (os : list Op) : outcome (list Res * St) :=
    ofold os ([], s) (fun o '(rs, s) => let* '(r, s) := call s o in Ret (rs ++ [r], s)).

  Lemma calls_acc os : forall rs s, ofold os (rs, s) (fun o '(rs, s) => let* '(r, s) := call s o in Ret (rs ++ [r], s)) =
    (let* '(rs', s') := calls s os in Ret (rs ++ rs', s')).
  Proof.
    unfold calls. induction os as [|o os IH]; intros rs s; cbn [ofold obind]; [by rewrite app_nil_r|].
    destruct (call s o) as [[r s1]| | |]; try done. cbn [obind]. rewrite (IH (rs ++ [r])), (IH ([] ++ [r])).
    destruct (ofold os ([], s1) _) as [[rs' s']| | |]; try done. cbn [obind]. by rewrite <- app_assoc.
  Qed.
  Lemma calls_cons s o os : calls s (o :: os) = (let* '(r, s1) := call s o in let* '(rs, s2) := calls s1 os in Ret (r :: rs, s2)).
  Proof.
    unfold calls at 1. cbn [ofold]. destruct (call s o) as [[r s1]| | |]; try done. cbn [obind]. rewrite calls_acc. done.
  Qed.
  Lemma vrun_acc cs : forall rs v, ofold cs (rs, v) (fun c '(rs, v) => let* '(r, v) := vstep v c in Ret (rs ++ [r], v)) =
    (let* '(rs', v') := vrun v cs in Ret (rs ++ rs', v')).
  Proof.
    unfold ObjectSpec.vrun. induction cs as [|c cs IH]; intros rs v; cbn [ofold obind]; [by rewrite app_nil_r|].
    destruct (vstep v c) as [[r v1]| | |]; try done. cbn [obind]. rewrite (IH (rs ++ [r])), (IH ([] ++ [r])).
    destruct (ofold cs ([], v1) _) as [[rs' v']| | |]; try done. cbn [obind]. by rewrite <- app_assoc.
  Qed.
  Lemma vrun_cons v c cs : vrun v (c :: cs) = (let* '(r, v1) := vstep v c in let* '(rs, v2) := vrun v1 cs in Ret (r :: rs, v2)).
  Proof.
    unfold ObjectSpec.vrun at 1. cbn [ofold]. destruct (vstep v c) as [[r v1]| | |]; try done. cbn [obind]. rewrite vrun_acc. done.
  Qed.
  Lemma vrun_app cs1 : forall v cs2, vrun v (cs1 ++ cs2) = (let* '(rs1, v1) := vrun v cs1 in let* '(rs2, v2) := vrun v1 cs2 in Ret (rs1 ++ rs2, v2)).
  Proof.
    induction cs1 as [|c cs1 IH]; intros v cs2; cbn [app].
    - change (vrun v []) with (Ret (@nil (cres Res SRes), v)). cbn [obind]. by destruct (vrun v cs2) as [[]| | |].
    - rewrite !vrun_cons. destruct (vstep v c) as [[r v1]| | |]; try done. cbn [obind]. rewrite IH.
      destruct (vrun v1 cs1) as [[rs1 v2]| | |]; try done. cbn [obind]. by destruct (vrun v2 cs2) as [[rs2 v3]| | |].
  Qed.

  (** results of an interleaved run, sorted by variable, are those of the separate runs *)
  Lemma calls_apart os : forall v rs v', vrun v (as_cmds os) = Ret (rs, v') ->
    exists rs0, rs = map RCall rs0 /\ length rs0 = length os /\
      (forall x s, v !! x = Some s -> exists s', calls s (part x os) = Ret (part x (zip (map fst os) rs0), s') /\ v' !! x = Some s') /\
      (forall x, v !! x = None -> v' !! x = None /\ part x os = []).
  Proof.
    induction os as [|[y o] os IH]; intros v rs v' H.
    - injection H as <- <-. exists []. split; [done|]. split; [done|]. split; [|done]. intros x s E. exists s. done.
    - cbn [as_cmds map] in H. rewrite vrun_cons in H. apply obind_ret_inv in H as ([r v1] & H1 & H). apply obind_ret_inv in H as ([rs1 v2] & H2 & H).
      injection H as <- <-. unfold ObjectSpec.vstep, value_of in H1. destruct (v !! y) as [s0|] eqn:Ey; [|done]. cbn [obind] in H1.
      apply obind_ret_inv in H1 as ([r0 s1] & Ec & H1). injection H1 as <- <-.
      destruct (IH _ _ _ H2) as (rs0 & -> & Hl & Hs & Hn). exists (r0 :: rs0). split; [done|]. split; [cbn; by rewrite Hl|]. split.
      + intros x s Ex. unfold part. cbn [map zip zip_with]. rewrite !filter_cons. cbn [fst]. case_decide as Hx.
        * subst y. rewrite Ey in Ex. injection Ex as ->. destruct (Hs x s1) as (s' & E & E'); [by rewrite lookup_insert|].
          exists s'. split; [|done]. cbn [map snd]. rewrite calls_cons, Ec. cbn [obind]. unfold part in E. by rewrite E.
        * apply Hs. by rewrite lookup_insert_ne.
      + intros x Ex. assert (y <> x) by congruence. destruct (Hn x) as [E1 E2]; [by rewrite lookup_insert_ne|]. split; [done|].
        unfold part. rewrite filter_cons. cbn [fst]. by rewrite decide_False.
  Qed.
  (** and the interleaved run returns when the separate runs do *)
  Lemma calls_together os : forall v, (forall x o, (x, o) ∈ os -> is_Some (v !! x)) ->
    (forall x s, v !! x = Some s -> exists r, calls s (part x os) = Ret r) -> exists rs v', vrun v (as_cmds os) = Ret (rs, v').
  Proof.
    induction os as [|[y o] os IH]; intros v Hd Hr; [by eexists _, _|].
    cbn [as_cmds map]. rewrite vrun_cons. unfold ObjectSpec.vstep, value_of. destruct (Hd y o) as [s Es]; [left|]. rewrite Es. cbn [obind].
    destruct (Hr y s Es) as [q E]. unfold part in E. rewrite filter_cons in E. cbn [fst] in E. rewrite decide_True in E by done. cbn [map snd] in E.
    rewrite calls_cons in E. apply obind_ret_inv in E as ([r s1] & Ec & E). rewrite Ec. cbn [obind]. apply obind_ret_inv in E as (q1 & E & _).
    destruct (IH (<[y := s1]> v)) as (rs & v' & H).
    - intros x o' Hx. destruct (decide (x = y)) as [->|Hxy]; [rewrite lookup_insert; eauto|]. rewrite lookup_insert_ne by done. eapply Hd. right. exact Hx.
    - intros x s' Ex. destruct (decide (x = y)) as [->|Hxy].
      + rewrite lookup_insert in Ex. injection Ex as <-. by exists q1.
      + rewrite lookup_insert_ne in Ex by done. destruct (Hr x s' Ex) as [q2 E2]. exists q2. revert E2. unfold part. rewrite filter_cons. cbn [fst].
        by rewrite decide_False.
    - exists (RCall r :: rs), v'. unfold as_cmds in H. by rewrite H.
  Qed.
End Calls.
