(** * Specification of containers as values, independent of memory; and the proof that the objects in memory behave so (C66). *)
From Verif Require Export Values.
From Verif Require Import Wp.
From stdpp Require Import gmap stringmap.
Local Open Scope nat_scope.

Section Spec.
  Context {H C Args Op Res : Type} (K : container H C Args Op Res).
  Notation cmd := (vcmd Args Op).
  (** every variable in scope holds its own dimensions and elements *)
  Notation values := (stringmap (H * list C)).
  Definition val (v : values) (x : string) : outcome (H * list C) := match v !! x with Some a => Ret a | None => UB EmptyDeref end.
  Definition unused (v : values) (x : string) : outcome unit := match v !! x with Some _ => UB EmptyDeref | None => Ret tt end.
  Definition vstep (v : values) (c : cmd) : outcome (vres Res * values) :=
    match c with
    | VMake x a => let* _ := unused v x in Ret (VNone, <[x := make K a]> v)
    | VCopy x y => let* _ := unused v x in let* a := val v y in Ret (VNone, <[x := a]> v)
    | VMove x y => let* _ := unused v x in let* a := val v y in Ret (VNone, <[x := a]> (<[y := (moved_by_ctor K a.1, [])]> v))
    | VAssign x y => let* _ := val v x in let* a := val v y in Ret (VNone, <[x := a]> v)
    | VMoveAssign x y => let* _ := val v x in let* a := val v y in Ret (VNone, <[y := (moved_by_assign K a.1, [])]> (<[x := a]> v))
    | VDo x o => let* a := val v x in let* '(r, d) := member K a.1 a.2 o in Ret (VRes r, <[x := (a.1, d)]> v)
    | VEqual x y => let* a := val v x in let* b := val v y in Ret (VBool (equal K a b), v)
    | VDestroy x => let* _ := val v x in Ret (VNone, delete x v)
    end.
  Definition vrun (v : values) (cs : list cmd) : outcome (list (vres Res) * values) :=
    ofold cs ([], v) (fun c '(rs, v) => let* '(r, v) := vstep v c in Ret (rs ++ [r], v)).
End Spec.

Section Refine.
  Context {H C Args Op Res : Type} (K : container H C Args Op Res).
  Context (Hlen : forall h d o r d', member K h d o = Ret (r, d') -> length d' = length d).
  Context (alloc : gmap Z (list C) -> Z) (Halloc : forall h, h !! alloc h = None).
  Notation world := (vworld H C).
  Notation values := (stringmap (H * list C)).
  Notation heap := (gmap Z (list C)).

  (** the elements a vector holds in a heap *)
  Definition holds_vec (h : heap) (q : cvec) (d : list C) : Prop :=
    match v_start q with
    | None => v_size q = 0 /\ d = []
    | Some a => exists b, h !! a = Some b /\ v_size q <= length b /\ d = take (v_size q) b
    end.
  Definition ptr (w : world) (x : string) : option Z := match vw_vars w !! x with Some o => v_start o.2 | None => None end.
  Record owned (w : world) (v : values) : Prop := {
    od_val : forall x, match vw_vars w !! x, v !! x with
                       | Some (h, q), Some (h', d) => h = h' /\ holds_vec (vw_heap w) q d | None, None => True | _, _ => False end;
    od_one : forall x y a, ptr w x = Some a -> ptr w y = Some a -> x = y;
    od_leak : forall a, is_Some (vw_heap w !! a) -> exists x, ptr w x = Some a }.

  Lemma owned0 : owned vworld0 ∅.
  Proof using.
    split.
    - intros x. cbn. by rewrite !lookup_empty.
    - intros x y a. unfold ptr. cbn. by rewrite lookup_empty.
    - intros a [b Hb]. cbn in Hb. by rewrite lookup_empty in Hb.
  Qed.
  Lemma ptr_insert w x h q hp y : ptr (VWorld (<[x := (h, q)]> (vw_vars w)) hp) y = if decide (y = x) then v_start q else ptr w y.
  Proof using.
    unfold ptr. cbn. case_decide as E; [subst; by rewrite lookup_insert|by rewrite lookup_insert_ne].
  Qed.
  Lemma ptr_live w v x a : owned w v -> ptr w x = Some a -> is_Some (vw_heap w !! a).
  Proof using.
    intros [Hv _ _]. unfold ptr. specialize (Hv x). destruct (vw_vars w !! x) as [[h q]|]; [|done]. destruct (v !! x) as [[h' d]|]; [|done].
    destruct Hv as [_ Hq]. unfold holds_vec in Hq. cbn [snd]. intros E. rewrite E in Hq. destruct Hq as (b & Hb & _). eauto.
  Qed.

  (** 1. a variable without block gets a new one *)
  Lemma give_new w v x h d : owned w v -> ptr w x = None ->
    owned (VWorld (<[x := (h, (new_vec alloc (vw_heap w) d).1)]> (vw_vars w)) (new_vec alloc (vw_heap w) d).2) (<[x := (h, d)]> v).
  Proof using Halloc.
    intros HO Hx. pose proof (Halloc (vw_heap w)) as Ha. unfold new_vec. case_decide as Hd; cbn [fst snd].
    - destruct d; [|done]. pose proof HO as [Hv Ho Hl]. split.
      + intros y. cbn [vw_vars vw_heap]. destruct (decide (y = x)) as [->|Hy]; [rewrite !lookup_insert; done|]. rewrite !lookup_insert_ne by done. apply Hv.
      + intros y z a. rewrite !ptr_insert. do 2 case_decide; try done. apply Ho.
      + intros a Hb. destruct (Hl a Hb) as [y Hy]. exists y. rewrite ptr_insert. case_decide; [subst; congruence|done].
    - set (a := alloc (vw_heap w)) in *. clearbody a. pose proof HO as [Hv Ho Hl].
      assert (Hp : forall y, ptr w y <> Some a) by (intros y Ey; destruct (ptr_live w v y a HO Ey); congruence).
      split.
      + intros y. cbn [vw_vars vw_heap]. destruct (decide (y = x)) as [->|Hy].
        * rewrite !lookup_insert. split; [done|]. unfold holds_vec. cbn [v_start v_size]. exists d. rewrite lookup_insert. split; [done|]. split; [done|]. by rewrite firstn_all.
        * rewrite !lookup_insert_ne by done. specialize (Hv y). specialize (Hp y). unfold ptr in Hp. destruct (vw_vars w !! y) as [[h1 q1]|]; [|done].
          destruct (v !! y) as [[h2 d2]|]; [|done]. destruct Hv as [-> Hq]. split; [done|]. cbn [snd] in Hp. unfold holds_vec in *. destruct (v_start q1) as [b|]; [|done].
          rewrite lookup_insert_ne by congruence. done.
      + intros y z b. rewrite !ptr_insert. cbn [v_start]. do 2 case_decide; intros E1 E2; subst; try done; [|destruct (Hp y); congruence|by eapply Ho].
        destruct (Hp z). congruence.
      + intros b Hb. cbn [vw_heap] in Hb. destruct (decide (b = a)) as [->|Hba]; [exists x; rewrite ptr_insert; by rewrite decide_True|].
        rewrite lookup_insert_ne in Hb by done. destruct (Hl b Hb) as [y Hy]. exists y. rewrite ptr_insert. case_decide; [subst; congruence|done].
  Qed.
  (** 2. a variable's block is freed *)
  Lemma give_up w v x h q : owned w v -> vw_vars w !! x = Some (h, q) -> forall h',
    exists hp, free_vec (vw_heap w) q = Ret hp /\ owned (VWorld (<[x := (h', vec0)]> (vw_vars w)) hp) (<[x := (h', [])]> v) /\
      (forall a b, hp !! a = Some b -> vw_heap w !! a = Some b).
  Proof using.
    intros HO Ex h'. pose proof HO as [Hv Ho Hl]. unfold free_vec. pose proof (Hv x) as Hvx. rewrite Ex in Hvx. destruct (v !! x) as [[h2 d]|]; [|done].
    destruct Hvx as [_ Hq]. unfold holds_vec in Hq. destruct (v_start q) as [a|] eqn:Eq.
    - destruct Hq as (b & Hb & _). rewrite Hb. eexists; split; [done|].
      assert (Hpx : ptr w x = Some a) by (unfold ptr; by rewrite Ex). split; [split|].
      + intros y. cbn [vw_vars vw_heap]. destruct (decide (y = x)) as [->|Hy]; [rewrite !lookup_insert; done|]. rewrite !lookup_insert_ne by done.
        pose proof (Hv y) as Hvy. pose proof (Ho y x) as Hoy. unfold ptr in Hoy at 1. destruct (vw_vars w !! y) as [[h1 q1]|]; [|done].
        destruct (v !! y) as [[h3 d3]|]; [|done]. destruct Hvy as [-> Hq1]. split; [done|]. cbn [snd] in Hoy. unfold holds_vec in *. destruct (v_start q1) as [c|]; [|done].
        rewrite lookup_delete_ne; [done|]. intros ->. by apply Hy, (Hoy c).
      + intros y z c. rewrite !ptr_insert. cbn [v_start vec0]. do 2 case_decide; try done. apply Ho.
      + intros c [b' Hc]. cbn [vw_heap] in Hc. apply lookup_delete_Some in Hc as [Hac Hc]. destruct (Hl c ltac:(eauto)) as [y Hy]. exists y. rewrite ptr_insert. case_decide; [subst; congruence|done].
      + intros c b' Hc. by apply lookup_delete_Some in Hc as [_ Hc].
    - assert (Hpx : ptr w x = None) by (unfold ptr; by rewrite Ex). eexists; split; [done|]. split; [split|done].
      + intros y. cbn [vw_vars vw_heap]. destruct (decide (y = x)) as [->|Hy]; [rewrite !lookup_insert; done|]. rewrite !lookup_insert_ne by done. apply Hv.
      + intros y z c. rewrite !ptr_insert. cbn [v_start vec0]. do 2 case_decide; try done. apply Ho.
      + intros c Hc. cbn [vw_heap] in Hc. destruct (Hl c Hc) as [y Hy]. exists y. rewrite ptr_insert. case_decide; [subst; congruence|done].
  Qed.
  (** 3. a variable's block gets other contents *)
  Lemma overwrite w v x h q a b d h' n : owned w v -> vw_vars w !! x = Some (h, q) -> v_start q = Some a -> n <= length b -> d = take n b ->
    owned (VWorld (<[x := (h', Vec (Some a) n)]> (vw_vars w)) (<[a := b]> (vw_heap w))) (<[x := (h', d)]> v).
  Proof using.
    intros HO Ex Eq Hn Hd. pose proof HO as [Hv Ho Hl]. assert (Hpx : ptr w x = Some a) by (unfold ptr; by rewrite Ex). split.
    - intros y. cbn [vw_vars vw_heap]. destruct (decide (y = x)) as [->|Hy].
      + rewrite !lookup_insert. split; [done|]. unfold holds_vec. cbn [v_start v_size]. exists b. by rewrite lookup_insert.
      + rewrite !lookup_insert_ne by done. pose proof (Hv y) as Hvy. pose proof (Ho y x) as Hoy. unfold ptr in Hoy at 1. destruct (vw_vars w !! y) as [[h1 q1]|]; [|done].
        destruct (v !! y) as [[h3 d3]|]; [|done]. destruct Hvy as [-> Hq1]. split; [done|]. cbn [snd] in Hoy. unfold holds_vec in *. destruct (v_start q1) as [c|]; [|done].
        rewrite lookup_insert_ne; [done|]. intros <-. by apply Hy, (Hoy a).
    - intros y z c. rewrite !ptr_insert. cbn [v_start]. do 2 case_decide; intros E1 E2; subst; try done; [| |by eapply Ho].
      + injection E1 as <-. symmetry. by eapply Ho. + injection E2 as <-. by eapply Ho.
    - intros c Hc. cbn [vw_heap] in Hc. destruct (decide (c = a)) as [->|Hca]; [exists x; rewrite ptr_insert; by rewrite decide_True|].
      rewrite lookup_insert_ne in Hc by done. destruct (Hl c Hc) as [y Hy]. exists y. rewrite ptr_insert. case_decide; [subst; congruence|done].
  Qed.
  (** 4. a variable without block takes the block of another one *)
  Lemma take_over w v x y h q d hx hy : owned w v -> x <> y -> ptr w x = None -> vw_vars w !! y = Some (h, q) -> v !! y = Some (h, d) ->
    owned (VWorld (<[x := (hx, q)]> (<[y := (hy, vec0)]> (vw_vars w))) (vw_heap w)) (<[x := (hx, d)]> (<[y := (hy, [])]> v)).
  Proof using.
    intros HO Hxy Hx Ey Vy. pose proof HO as [Hv Ho Hl].
    assert (Hp : forall z, ptr (VWorld (<[x := (hx, q)]> (<[y := (hy, vec0)]> (vw_vars w))) (vw_heap w)) z =
      if decide (z = x) then v_start q else if decide (z = y) then None else ptr w z).
    { intros z. unfold ptr. cbn [vw_vars]. case_decide as E; [subst; by rewrite lookup_insert|]. rewrite lookup_insert_ne by done.
      case_decide as E2; [subst; by rewrite lookup_insert|by rewrite lookup_insert_ne]. }
    assert (Hpy : ptr w y = v_start q) by (unfold ptr; by rewrite Ey). split.
    - intros z. cbn [vw_vars vw_heap]. destruct (decide (z = x)) as [->|Hz].
      + rewrite !lookup_insert. split; [done|]. pose proof (Hv y) as Hvy. rewrite Ey, Vy in Hvy. apply Hvy.
      + rewrite !(lookup_insert_ne _ x) by done. destruct (decide (z = y)) as [->|Hzy]; [rewrite !lookup_insert; done|]. rewrite !lookup_insert_ne by done. apply Hv.
    - intros z z' c. rewrite !Hp. rewrite <- Hpy. repeat case_decide; intros E1 E2; subst; try done; [| |by eapply Ho].
      + exfalso. match goal with Q : ?z' <> y |- _ => apply Q; symmetry; by eapply Ho end.
      + exfalso. match goal with Q : ?z' <> y |- _ => apply Q; by eapply Ho end.
    - intros c Hc. cbn [vw_heap] in Hc. destruct (Hl c Hc) as [z Hz]. destruct (decide (z = y)) as [->|Hzy].
      + exists x. rewrite Hp, decide_True by done. congruence.
      + exists z. rewrite Hp. case_decide; [subst; congruence|]. by rewrite decide_False.
  Qed.
  (** 5. a variable without block goes out of scope *)
  Lemma forget w v x : owned w v -> ptr w x = None -> owned (VWorld (delete x (vw_vars w)) (vw_heap w)) (delete x v).
  Proof using.
    intros HO Hx. pose proof HO as [Hv Ho Hl].
    assert (Hp : forall z, ptr (VWorld (delete x (vw_vars w)) (vw_heap w)) z = if decide (z = x) then None else ptr w z).
    { intros z. unfold ptr. cbn [vw_vars]. case_decide as E; [subst; by rewrite lookup_delete|by rewrite lookup_delete_ne]. }
    split.
    - intros z. cbn [vw_vars vw_heap]. destruct (decide (z = x)) as [->|Hz]; [by rewrite !lookup_delete|]. rewrite !lookup_delete_ne by done. apply Hv.
    - intros z z' c. rewrite !Hp. do 2 case_decide; try done. apply Ho.
    - intros c Hc. cbn [vw_heap] in Hc. destruct (Hl c Hc) as [z Hz]. exists z. rewrite Hp. case_decide; [subst; congruence|done].
  Qed.

  (** reading *)
  Lemma owned_var w v x : owned w v ->
    (exists h q d, vw_vars w !! x = Some (h, q) /\ v !! x = Some (h, d) /\ holds_vec (vw_heap w) q d) \/ (vw_vars w !! x = None /\ v !! x = None).
  Proof using.
    intros [Hv _ _]. specialize (Hv x). destruct (vw_vars w !! x) as [[h q]|], (v !! x) as [[h' d]|]; try done; [|by right].
    destruct Hv as [-> Hq]. left. eauto 6.
  Qed.
  Lemma holds_block (w : world) q d : holds_vec (vw_heap w) q d ->
    exists b, vblock w q = Ret b /\ v_size q <= length b /\ d = take (v_size q) b /\ (v_start q = None -> b = []).
  Proof using.
    unfold holds_vec, vblock. destruct (v_start q) as [a|].
    - intros (b & Eb & Hb & ->). exists b. rewrite Eb. done.
    - intros [E ->]. exists []. rewrite E. done.
  Qed.
  Lemma holds_elements (w : world) q d : holds_vec (vw_heap w) q d -> velements w q = Ret d.
  Proof using.
    intros Hq. destruct (holds_block w q d Hq) as (b & Eb & Hb & -> & _). unfold velements. rewrite Eb. cbn [obind]. by rewrite decide_True.
  Qed.
  Lemma holds_size h q d : holds_vec h q d -> v_size q = length d.
  Proof using.
    unfold holds_vec. destruct (v_start q) as [a|]; [intros (b & _ & Hb & ->); rewrite firstn_length; lia|]. by intros [-> ->].
  Qed.

  Lemma vexec_refines w v c : owned w v -> orel (fun r1 r2 => r1.1 = r2.1 /\ owned r1.2 r2.2) (vexec K alloc w c) (vstep K v c).
  Proof using Hlen Halloc.
    intros HO. destruct c as [x a|x y|x y|x y|x y|x o|x y|x]; unfold vexec, vstep, undeclared, unused, var, val.
    - destruct (owned_var w v x HO) as [(h & q & d & -> & -> & _)|[Ex ->]]; [done|]. rewrite Ex. cbn [obind].
      destruct (make K a) as [h d]. pose proof (give_new w v x h d HO ltac:(unfold ptr; by rewrite Ex)) as N. destruct (new_vec alloc (vw_heap w) d) as [q hp].
      cbn [orel]. done.
    - destruct (owned_var w v x HO) as [(h & q & d & -> & -> & _)|[Ex ->]]; [done|]. rewrite Ex. cbn [obind].
      destruct (owned_var w v y HO) as [(h & q & d & -> & -> & Hq)|[-> ->]]; [|done]. cbn [obind]. rewrite (holds_elements _ _ _ Hq). cbn [obind].
      pose proof (give_new w v x h d HO ltac:(unfold ptr; by rewrite Ex)) as N. destruct (new_vec alloc (vw_heap w) d) as [q' hp]. cbn [orel]. done.
    - destruct (owned_var w v x HO) as [(h & q & d & -> & -> & _)|[Ex Vx]]; [done|]. rewrite Ex, Vx. cbn [obind].
      destruct (owned_var w v y HO) as [(h & q & d & Ey & Vy & Hq)|[-> ->]]; [|done]. rewrite Ey, Vy. cbn [obind orel fst snd]. split; [done|].
      apply (take_over w v x y h q d); try done; [congruence|unfold ptr; by rewrite Ex].
    - destruct (owned_var w v x HO) as [(hx & qx & dx & Ex & Vx & Hqx)|[-> ->]]; [|done]. rewrite Ex, Vx. cbn [obind].
      destruct (owned_var w v y HO) as [(h & q & d & Ey & Vy & Hq)|[-> ->]]; [|done]. rewrite Ey, Vy. cbn [obind].
      case_decide as Hxy; [subst y; cbn [orel fst snd]; split; [done|]; by rewrite insert_id|].
      unfold copy_assign. rewrite (holds_elements _ _ _ Hq). cbn [obind]. destruct (holds_block w qx dx Hqx) as (b & -> & Hb & Edx & Hnone). cbn [obind]. case_decide as Hl.
      + pose proof (give_up w v x hx qx HO Ex h) as (hp & Ef & HO' & Hsub).
        unfold new_vec. rewrite decide_False by lia. unfold free_vec in Ef |- *. set (a := alloc (vw_heap w)). pose proof (Halloc (vw_heap w)) as Ha. fold a in Ha. clearbody a.
        assert (Hhp : hp !! a = None) by (destruct (hp !! a) eqn:E; [apply Hsub in E; congruence|done]).
        (* a new block in the world without the old one *)
        assert (forall hp2, hp2 = <[a := d]> hp -> owned (VWorld (<[x := (h, Vec (Some a) (length d))]> (vw_vars w)) hp2) (<[x := (h, d)]> v)) as G.
        { intros hp2 ->. destruct HO' as [Hv' Ho' Hl'].
          assert (Hp : forall z, ptr (VWorld (<[x := (h, vec0)]> (vw_vars w)) hp) z <> Some a).
          { intros z Ez. destruct (ptr_live (VWorld (<[x := (h, vec0)]> (vw_vars w)) hp) (<[x := (h, [])]> v) z a) as [? Q]; [by split|done|]. cbn [vw_heap] in Q. congruence. }
          split.
          - intros z. cbn [vw_vars vw_heap]. destruct (decide (z = x)) as [->|Hz].
            + rewrite !lookup_insert. split; [done|]. unfold holds_vec. cbn [v_start v_size]. exists d. rewrite lookup_insert. split; [done|]. split; [done|]. by rewrite firstn_all.
            + pose proof (Hv' z) as Q. specialize (Hp z). unfold ptr in Hp. cbn [vw_vars vw_heap] in Q, Hp. rewrite !lookup_insert_ne in Q |- * by done. rewrite lookup_insert_ne in Hp by done.
              destruct (vw_vars w !! z) as [[h1 q1]|]; [|done]. destruct (v !! z) as [[h2 d2]|]; [|done]. destruct Q as [-> Q]. split; [done|]. cbn [snd] in Hp.
              unfold holds_vec in *. destruct (v_start q1) as [c|]; [|done]. rewrite lookup_insert_ne by congruence. done.
          - intros z z' c. specialize (Ho' z z' c). pose proof (Hp z) as P1. pose proof (Hp z') as P2. rewrite !ptr_insert. rewrite !ptr_insert in Ho'. rewrite !ptr_insert in P1. rewrite !ptr_insert in P2. cbn [v_start vec0] in *.
            do 2 case_decide; intros E1 E2; subst; try done; [destruct P2|destruct P1|]; try congruence. by apply Ho'.
          - intros c Hc. cbn [vw_heap] in Hc. destruct (decide (c = a)) as [->|Hca]; [exists x; rewrite ptr_insert; by rewrite decide_True|].
            rewrite lookup_insert_ne in Hc by done. destruct (Hl' c Hc) as [z Hz]. exists z. rewrite ptr_insert in Hz |- *. case_decide; [done|done]. }
        destruct (v_start qx) as [a0|] eqn:Eq0.
        * destruct (vw_heap w !! a0) as [b0|] eqn:E0; [|done]. injection Ef as <-. rewrite lookup_insert_ne by congruence. rewrite E0. cbn [obind orel fst snd]. split; [done|].
          apply G. rewrite delete_insert_ne by congruence. done.
        * injection Ef as <-. cbn [obind orel fst snd]. split; [done|]. by apply G.
      + destruct (v_start qx) as [a0|] eqn:Eq0.
        * cbn [obind orel fst snd]. split; [done|]. apply (overwrite w v x hx qx a0); try done; [rewrite app_length, drop_length; lia|]. by rewrite take_app.
        * rewrite (Hnone eq_refl) in *. cbn [length] in Hl. destruct d; [|cbn in Hl; lia]. cbn [obind orel fst snd]. split; [done|].
          pose proof (give_new w v x h [] HO ltac:(unfold ptr; by rewrite Ex)) as N. exact N.
    - destruct (owned_var w v x HO) as [(hx & qx & dx & Ex & Vx & Hqx)|[-> ->]]; [|done]. rewrite Ex, Vx. cbn [obind].
      destruct (owned_var w v y HO) as [(h & q & d & Ey & Vy & Hq)|[-> ->]]; [|done]. rewrite Ey, Vy. cbn [obind fst].
      case_decide as Hxy.
      + subst y. rewrite Ex in Ey. injection Ey as -> ->. destruct (give_up w v x h q HO Ex (moved_by_assign K h)) as (hp & -> & HO' & _).
        cbn [obind orel fst snd]. split; [done|]. by rewrite insert_insert.
      + destruct (give_up w v x hx qx HO Ex hx) as (hp & -> & HO' & _). cbn [obind orel fst snd]. split; [done|].
        pose proof (take_over _ _ x y h q d h (moved_by_assign K h) HO' Hxy) as T. cbn [vw_vars vw_heap] in T.
        rewrite ptr_insert, decide_True in T by done. specialize (T eq_refl). rewrite !(lookup_insert_ne _ x y) in T by done. specialize (T Ey Vy).
        rewrite !(insert_commute _ y x) in T by done. rewrite !insert_insert in T. rewrite (insert_commute v y x) by done. exact T.
    - destruct (owned_var w v x HO) as [(h & q & d & Ex & Vx & Hq)|[-> ->]]; [|done]. rewrite Ex, Vx. cbn [obind fst snd]. rewrite (holds_elements _ _ _ Hq). cbn [obind].
      destruct (member K h d o) as [[r d']| | |] eqn:Em; try done. cbn [obind]. pose proof (Hlen _ _ _ _ _ Em) as El.
      pose proof (holds_size _ _ _ Hq) as Es. destruct (holds_block w q d Hq) as (b & Eb & Hb & Ed & Hn).
      destruct (v_start q) as [a|] eqn:Eq.
      + rewrite Eb. cbn [obind orel fst snd]. split; [done|].
        assert (vw_vars w = <[x := (h, Vec (Some a) (v_size q))]> (vw_vars w)) as Ev by (rewrite insert_id; [done|]; rewrite Ex; destruct q; cbn in *; by subst).
        rewrite Ev. apply (overwrite w v x h q a); try done; [rewrite app_length, drop_length; lia|].
        rewrite Es, <- El. by rewrite take_app.
      + rewrite (Hn eq_refl) in *. rewrite take_nil in Ed. subst d. destruct d'; [|done]. cbn [orel fst snd]. split; [done|]. by rewrite insert_id.
    - destruct (owned_var w v x HO) as [(hx & qx & dx & -> & -> & Hqx)|[-> ->]]; [|done]. cbn [obind]. rewrite (holds_elements _ _ _ Hqx). cbn [obind].
      destruct (owned_var w v y HO) as [(h & q & d & -> & -> & Hq)|[-> ->]]; [|done]. cbn [obind]. rewrite (holds_elements _ _ _ Hq). cbn [obind orel fst snd]. done.
    - destruct (owned_var w v x HO) as [(h & q & d & Ex & Vx & Hq)|[-> ->]]; [|done]. rewrite Ex, Vx. cbn [obind].
      destruct (give_up w v x h q HO Ex h) as (hp & -> & HO' & _). cbn [obind orel fst snd]. split; [done|].
      pose proof (forget _ _ x HO') as F. rewrite ptr_insert, decide_True in F by done. specialize (F eq_refl). cbn [vw_vars vw_heap] in F.
      by rewrite !delete_insert_delete in F.
  Qed.
  Lemma vexecs_refines cs w v : owned w v -> orel (fun r1 r2 => r1.1 = r2.1 /\ owned r1.2 r2.2) (vexecs K alloc w cs) (vrun K v cs).
  Proof using Hlen Halloc.
    enough (forall rs0 w v, owned w v -> orel (fun r1 r2 => r1.1 = r2.1 /\ owned r1.2 r2.2)
      (ofold cs (rs0, w) (fun c '(rs, w) => let* '(r, w) := vexec K alloc w c in Ret (rs ++ [r], w)))
      (ofold cs (rs0, v) (fun c '(rs, v) => let* '(r, v) := vstep K v c in Ret (rs ++ [r], v)))) as G by apply G.
    clear w v. induction cs as [|c cs IH]; intros rs0 w v HO; cbn [ofold]; [done|].
    pose proof (vexec_refines w v c HO) as S. destruct (vexec K alloc w c) as [[r w1]| | |], (vstep K v c) as [[r' v1]| | |]; cbn [orel] in S; try done.
    cbn [obind fst snd] in *. destruct S as [-> S]. by apply IH.
  Qed.
End Refine.
