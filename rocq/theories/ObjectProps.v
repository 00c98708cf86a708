(** * Properties of programs over several estimator objects *)
From Verif Require Export ObjectSpec.
From stdpp Require Import gmap stringmap.
Local Open Scope Z_scope.

(** a state is owned by the variables exactly when it is live, and by one only *)
Definition one_owner {St} (w : world St) : Prop :=
  (forall a, is_Some (w_heap w !! a) -> exists x, w_ptr w !! x = Some a /\ forall y, w_ptr w !! y = Some a -> y = x) /\
  (forall x a, w_ptr w !! x = Some a -> is_Some (w_heap w !! a)).
(** the estimator variable [x] stands for *)
Definition holds {St} (w : world St) (x : string) : option St := match w_ptr w !! x with Some a => w_heap w !! a | None => None end.

Section Programs.
  Context {St Op Res SOp SRes : Type}.
  Context (fresh_state : params -> St) (call : St -> Op -> outcome (Res * St)) (sop : St -> SOp -> outcome (SRes * St)).
  Context (read : St -> params).
  Context (alloc : gmap Z St -> Z) (Halloc : forall h, h !! alloc h = None).
  Notation exec := (exec fresh_state call sop read alloc).
  Notation execs := (execs fresh_state call sop read alloc).
  Notation vstep := (vstep fresh_state call sop read).
  Notation vrun := (vrun fresh_state call sop read).

  Lemma execs_app cs1 : forall w cs2, execs w (cs1 ++ cs2) = (let* '(rs1, w1) := execs w cs1 in let* '(rs2, w2) := execs w1 cs2 in Ret (rs1 ++ rs2, w2)).
  Proof using.
    assert (Hacc : forall cs rs w, ofold cs (rs, w) (fun c '(rs, w) => let* '(r, w) := exec w c in Ret (rs ++ [r], w)) =
      (let* '(rs', w') := execs w cs in Ret (rs ++ rs', w'))).
    { unfold Objects.execs. induction cs as [|c cs IH]; intros rs w; cbn [ofold obind]; [by rewrite app_nil_r|].
      destruct (exec w c) as [[r w1]| | |]; try done. cbn [obind]. rewrite (IH (rs ++ [r])), (IH ([] ++ [r])).
      destruct (ofold cs ([], w1) _) as [[rs' w']| | |]; try done. cbn [obind]. by rewrite <- app_assoc. }
    induction cs1 as [|c cs1 IH]; intros w cs2; cbn [app].
    - change (execs w []) with (Ret (@nil (cres Res SRes), w)). cbn [obind]. by destruct (execs w cs2) as [[]| | |].
    - unfold Objects.execs at 1 2. cbn [ofold]. destruct (exec w c) as [[r w1]| | |]; try done. cbn [obind]. rewrite !Hacc, IH.
      destruct (execs w1 cs1) as [[rs1 w2]| | |]; try done. cbn [obind]. by destruct (execs w2 cs2) as [[rs2 w3]| | |].
  Qed.

  Lemma programs_are_values cs : match execs world0 cs, vrun ∅ cs with
    | Ret (rs, w), Ret (rs', v) => rs = rs' /\ (forall x, holds w x = v !! x) /\ one_owner w
    | Throw a, Throw b => a = b
    | UB a, UB b => a = b
    | OutOfFuel, OutOfFuel => True
    | _, _ => False
    end.
  Proof using Halloc.
    pose proof (execs_refines fresh_state call sop read alloc Halloc cs world0 ∅ owns0) as H.
    destruct (execs world0 cs) as [[rs w]| | |], (vrun ∅ cs) as [[rs' v]| | |]; cbn [orel2] in H; try done. cbn [fst snd] in H. destruct H as [H1 [Hv Hl Ho Hk]].
    split; [done|]. split; [exact Hv|]. split; [|exact Hl].
    intros a Ha. destruct (Hk a Ha) as [x Hx]. exists x. split; [done|]. intros y Hy. eauto.
  Qed.

  Lemma program_owns cs rs w : execs world0 cs = Ret (rs, w) -> exists v, owns w v /\ vrun ∅ cs = Ret (rs, v).
  Proof using Halloc.
    intros E. pose proof (execs_refines fresh_state call sop read alloc Halloc cs world0 ∅ owns0) as H. rewrite E in H.
    destruct (vrun ∅ cs) as [[rs' v]| | |]; cbn [orel2] in H; try done. cbn [fst snd] in H. destruct H as [-> H]. by exists v.
  Qed.

  (** calls interleaved at will after cloning *)
  Lemma clones_apart cs rs w x s q y os : execs world0 cs = Ret (rs, w) -> holds w x = Some s -> x <> y -> x <> q -> y <> q ->
    Forall (fun c => c.1 = x \/ c.1 = y) os ->
    (forall rs1 w1, execs world0 (cs ++ [CloneState q x; FromState y q] ++ as_cmds os) = Ret (rs1, w1) ->
       exists rs0 sx sy, rs1 = rs ++ [RVoid; RVoid] ++ map RCall rs0 /\ length rs0 = length os /\
         calls call s (part x os) = Ret (part x (zip (map fst os) rs0), sx) /\ holds w1 x = Some sx /\
         calls call s (part y os) = Ret (part y (zip (map fst os) rs0), sy) /\ holds w1 y = Some sy /\
         holds w1 q = Some s) /\
    ((exists r, calls call s (part x os) = Ret r) -> (exists r, calls call s (part y os) = Ret r) ->
       exists r, execs world0 (cs ++ [CloneState q x; FromState y q] ++ as_cmds os) = Ret r).
  Proof using Halloc.
    intros E Hx Hxy Hxq Hyq Hos. destruct (program_owns cs rs w E) as (v & HO & Ev).
    assert (Hvx : v !! x = Some s). { rewrite <- (ow_val _ _ HO x). exact Hx. }
    assert (Hr : vrun v ([CloneState q x; FromState y q] ++ as_cmds os) =
      (let* '(rs2, v2) := vrun (<[y := s]> (<[q := s]> v)) (as_cmds os) in Ret ([RVoid; RVoid] ++ rs2, v2))).
    { cbn [app]. rewrite vrun_cons. cbn [ObjectSpec.vstep]. unfold value_of at 1. rewrite Hvx. cbn [obind]. rewrite vrun_cons. cbn [ObjectSpec.vstep].
      unfold value_of at 1. rewrite lookup_insert. cbn [obind]. by destruct (vrun _ (as_cmds os)) as [[]| | |]. }
    set (v1 := <[y := s]> (<[q := s]> v)) in *.
    assert (V1x : v1 !! x = Some s) by (unfold v1; by rewrite !lookup_insert_ne by done).
    assert (V1y : v1 !! y = Some s) by (unfold v1; by rewrite lookup_insert).
    assert (V1q : v1 !! q = Some s) by (unfold v1; by rewrite lookup_insert_ne, lookup_insert by done).
    rewrite execs_app, E. cbn [obind].
    pose proof (execs_refines fresh_state call sop read alloc Halloc ([CloneState q x; FromState y q] ++ as_cmds os) w v HO) as H. rewrite Hr in H. split.
    - intros rs1 w1 E1. apply obind_ret_inv in E1 as ([rs2 w2] & E1 & E2). injection E2 as <- <-. rewrite E1 in H.
      destruct (vrun v1 (as_cmds os)) as [[rs3 v3]| | |] eqn:Ev3; cbn [obind orel2] in H; try done. cbn [fst snd] in H. destruct H as [-> HO3].
      destruct (calls_apart fresh_state call sop read os v1 rs3 v3 Ev3) as (rs0 & -> & Hl & Hs & _).
      destruct (Hs x s V1x) as (sx & Ex & Hsx). destruct (Hs y s V1y) as (sy & Ey & Hsy). destruct (Hs q s V1q) as (sq & Eq & Hsq).
      assert (Hq : part q os = []).
      { unfold part. assert (filter (fun c : string * Op => c.1 = q) os = []) as ->; [|done].
        clear -Hos Hxq Hyq. induction Hos as [|c os Hc _ IH]; [done|]. rewrite filter_cons, decide_False; [done|]. intros Hcq. destruct Hc; congruence. }
      rewrite Hq in Eq. injection Eq as _ <-.
      exists rs0, sx, sy. split; [done|]. split; [done|]. split; [done|]. split; [rewrite <- Hsx; apply (ow_val _ _ HO3)|]. split; [done|].
      split; [rewrite <- Hsy; apply (ow_val _ _ HO3)|rewrite <- Hsq; apply (ow_val _ _ HO3)].
    - intros [rx Hrx] [ry Hry].
      assert (exists rs3 v3, vrun v1 (as_cmds os) = Ret (rs3, v3)) as (rs3 & v3 & Ev3).
      { assert (Hvr : forall os' s0 x', (x' = x \/ x' = y) -> v1 !! x' = Some s0 -> os' = os -> exists r, calls call s0 (part x' os') = Ret r).
        { intros os' s0 x' [->| ->] Es ->; [rewrite V1x in Es|rewrite V1y in Es]; injection Es as <-; eauto. }
        apply calls_together.
        - intros z o Hz. rewrite Forall_forall in Hos. destruct (Hos _ Hz) as [Hc|Hc]; cbn in Hc; subst; eauto.
        - intros z t Ez. destruct (decide (z = x)) as [->|Hzx]; [eapply Hvr; eauto|]. destruct (decide (z = y)) as [->|Hzy]; [eapply Hvr; eauto|].
          exists ([], t). assert (part z os = []) as ->; [|done].
          unfold part. assert (filter (fun c : string * Op => c.1 = z) os = []) as ->; [|done].
          clear -Hos Hzx Hzy. induction Hos as [|c os Hc _ IH]; [done|]. rewrite filter_cons, decide_False; [done|]. intros Hcq. destruct Hc; congruence. }
      rewrite Ev3 in H. cbn [obind] in H. destruct (execs w _) as [[rs2 w2]| | |]; cbn [orel2] in H; try done. cbn [obind]. eauto.
  Qed.

  (** an estimator that was moved from, or destroyed, must not be used *)
  Definition uses (x : string) (c : cmd Op SOp) : Prop :=
    match c with
    | Call y _ | ReadParams y | OnState y _ => y = x
    | CloneState _ y | FromState _ y => y = x
    | _ => False
    end.
  Lemma gone cs rs w y c c' : execs world0 cs = Ret (rs, w) -> ((exists x, x <> y /\ c = Move x y) \/ c = Destroy y) -> uses y c' ->
    execs world0 (cs ++ [c; c']) = UB EmptyDeref.
  Proof using Halloc.
    intros E Hc Hu. destruct (program_owns cs rs w E) as (v & HO & Ev). rewrite execs_app, E. cbn [obind].
    pose proof (execs_refines fresh_state call sop read alloc Halloc [c; c'] w v HO) as H.
    assert (Hv : exists v1, vstep v c = Ret (RVoid, v1) /\ v1 !! y = None).
    { destruct Hc as [(x & Hxy & ->)| ->]; cbn [ObjectSpec.vstep].
      - rewrite decide_False by done. eexists; split; [done|]. rewrite lookup_partial_alter_ne by done. apply lookup_delete.
      - eexists; split; [done|]. apply lookup_delete. }
    destruct Hv as (v1 & E1 & Hn). rewrite vrun_cons, E1 in H. cbn [obind] in H. rewrite vrun_cons in H.
    assert (vstep v1 c' = UB EmptyDeref) as E2.
    { destruct c'; cbn [uses] in Hu; try done; subst; unfold ObjectSpec.vstep, value_of; by rewrite Hn. }
    rewrite E2 in H. cbn [obind] in H. destruct (execs w [c; c']) as [[]| | |]; cbn [orel2] in H; try done. by subst.
  Qed.
End Programs.
