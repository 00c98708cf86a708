(** * Proofs about the result type: programs with Eithers compute with sums *)
From Verif Require Import Results ResultSpec ParamChain.
From stdpp Require Import stringmap fin_maps list.
Local Open Scope Z_scope.

Section ResultProps.
  Context {W X V : Type} (eqv : V -> V -> bool) (mf : V -> V).
  Notation emb o := (obind o (fun rs : _ * sstate W V => Ret (rs.1, state_of rs.2))).

  Lemma rvar_of (s : sstate W V) y : rvar (state_of s) y = let* v := svar s y in Ret (obj_of v).
  Proof. unfold rvar, svar, state_of. cbn. rewrite lookup_fmap. by destruct (s_vars s !! y). Qed.
  Lemma rnew_of (s : sstate W V) y : rnew (state_of s) y = snew s y.
  Proof. unfold rnew, snew, state_of. cbn. rewrite lookup_fmap. by destruct (s_vars s !! y). Qed.
  Lemma snew_ret (s : sstate W V) y u : snew s y = Ret u -> s_vars s !! y = None.
  Proof. unfold snew. by destruct (s_vars s !! y). Qed.
  Lemma svar_ret (s : sstate W V) y v : svar s y = Ret v -> s_vars s !! y = Some v.
  Proof. unfold svar. destruct (s_vars s !! y) eqn:E; [|done]. by injection 1 as ->. Qed.
  Lemma rworld_eq (w : rworld W) n : n = live w -> w = RWorld n (rest w).
  Proof. intros ->. by destruct w. Qed.
  Lemma state_new (s : sstate W V) x v q : s_vars s !! x = None ->
    state_of (W := W) (SState (<[x := v]> (s_vars s)) q) = RState (<[x := obj_of v]> (obj_of <$> s_vars s)) (RWorld (Z.of_nat (size (s_vars s)) + 1) q).
  Proof. intros E. unfold state_of. cbn. rewrite fmap_insert, map_size_insert_None by done. do 2 f_equal. lia. Qed.
  Lemma state_upd (s : sstate W V) y v v' q : s_vars s !! y = Some v ->
    state_of (W := W) (SState (<[y := v']> (s_vars s)) q) = RState (<[y := obj_of v']> (obj_of <$> s_vars s)) (RWorld (Z.of_nat (size (s_vars s))) q).
  Proof. intros E. unfold state_of. cbn. rewrite fmap_insert, map_size_insert_Some by (rewrite E; eauto). done. Qed.

  Lemma declares_of s x (m : act W (eobj V V)) v : (forall w, m w = Ret (obj_of v, RWorld (live w + 1) (rest w))) ->
    declares (X := X) (state_of s) x m = emb (sdeclare s x v).
  Proof.
    intros H. unfold declares, sdeclare. rewrite rnew_of. destruct (snew s x) eqn:E; cbn [obind fst snd]; try done.
    rewrite H. cbn [obind r_world live rest fst snd]. apply snew_ret in E. by rewrite state_new.
  Qed.
  Lemma maps_of s x y (m : eobj V V -> act W (eobj V V + X)) k :
    (forall v w, m (obj_of v) w = let* '(r, q) := k v (rest w) in
       Ret (match r with inl n => (inl (obj_of n), RWorld (live w + 1) q) | inr e => (inr e, RWorld (live w) q) end)) ->
    maps (state_of s) x y m = emb (smap s x y k).
  Proof.
    intros H. unfold maps, smap. rewrite rnew_of, rvar_of. destruct (snew s x) eqn:E; cbn [obind fst snd]; try done. apply snew_ret in E.
    destruct (svar s y) as [v| | |] eqn:F; cbn [obind fst snd]; try done. rewrite H. cbn [r_world state_of rest live].
    destruct (k v (s_rest s)) as [[[n|e] q]| | |]; cbn [obind fst snd]; try done. by rewrite state_new.
  Qed.
  Lemma maps_rv_of s x y (m : eobj V V -> act W ((eobj V V + X) * eobj V V)) k :
    (forall v w, m (obj_of v) w = let* '(r, v', q) := k v (rest w) in
       Ret (match r with inl n => ((inl (obj_of n), obj_of v'), RWorld (live w + 1) q) | inr e => ((inr e, obj_of v'), RWorld (live w) q) end)) ->
    maps_rv (state_of s) x y m = emb (smap_rv s x y k).
  Proof.
    intros H. unfold maps_rv, smap_rv. rewrite rnew_of, rvar_of. destruct (snew s x) eqn:E; cbn [obind fst snd]; try done. apply snew_ret in E.
    destruct (svar s y) as [v| | |] eqn:F; cbn [obind fst snd]; try done. apply svar_ret in F. rewrite H. cbn [r_world state_of rest live].
    destruct (k v (s_rest s)) as [[[[n|e] v'] q]| | |]; cbn [obind fst snd]; try done.
    - assert (x <> y) by congruence.
      pose proof (state_new (SState (<[y := v']> (s_vars s)) q) x n q) as Q. cbn [s_vars] in Q. rewrite Q by (by rewrite lookup_insert_ne).
      rewrite fmap_insert, map_size_insert_Some by (rewrite F; eauto). done.
    - by rewrite (state_upd s y v v' q).
  Qed.
  Lemma looks_of s y (m : eobj V V -> act W (rres X V)) k :
    (forall v w, m (obj_of v) w = let* '(r, q) := k v (rest w) in Ret (r, RWorld (live w) q)) ->
    looks (state_of s) y m = emb (slook s y k).
  Proof.
    intros H. unfold looks, slook. rewrite rvar_of. destruct (svar s y) as [v| | |] eqn:F; cbn [obind fst snd]; try done.
    rewrite H. cbn [r_world state_of rest live]. by destruct (k v (s_rest s)) as [[r q]| | |].
  Qed.
  Lemma looks_rv_of s y (m : eobj V V -> act W (rres X V * eobj V V)) k :
    (forall v w, m (obj_of v) w = let* '(r, v', q) := k v (rest w) in Ret ((r, obj_of v'), RWorld (live w) q)) ->
    looks_rv (state_of s) y m = emb (slook_rv s y k).
  Proof.
    intros H. unfold looks_rv, slook_rv. rewrite rvar_of. destruct (svar s y) as [v| | |] eqn:F; cbn [obind fst snd]; try done. apply svar_ret in F.
    rewrite H. cbn [r_world state_of rest live]. destruct (k v (s_rest s)) as [[[r v'] q]| | |]; cbn [obind fst snd]; try done.
    by rewrite (state_upd s y v v' q).
  Qed.

  Ltac step := cbv [e_destroy bind ret copied_obj moved_obj destroyed from_left_rv from_right_rv leftOf rightOf leftOf_rv rightOf_rv e_copy e_move
    e_leftMap e_rightMap e_leftFlatMap e_rightFlatMap e_leftMap_rv e_rightMap_rv e_leftFlatMap_rv e_rightFlatMap_rv e_join e_join_rv
    e_cases e_cases_rv e_bool e_left e_right e_equal e_unequal shown shown_maybe maybe_fn m_of m_none m_value m_destroy m_equal m_empty
    leftValue rightValue set_left set_right as_reader as_taker called called_rv obj_of e_isLeft e_store m_store m_hasValue negb id
    obind live rest left_over said].
  Ltac fin := repeat match goal with
    | |- context [match ?f ?a ?b with Ret _ => _ | _ => _ end] => destruct (f a b) as [?| | |]
    | |- context [let '(_, _) := ?p in _] => destruct p
    | |- context [match ?u with inl _ => _ | inr _ => _ end] => destruct u
    end; try done; repeat f_equal; cbn; try lia; try done.

  Lemma rexec_refines s c : rexec eqv mf (state_of (s : sstate W V)) c = emb (sexec (X := X) eqv mf s c).
  Proof.
    destruct c; cbn [rexec sexec].
    1-4: apply declares_of; intros [n q]; step; fin.
    all: try (apply maps_of; intros [l|r] [n q]; step; fin).
    all: try (apply maps_rv_of; intros [l|r] [n q]; step; fin).
    all: try (apply looks_of; intros [l|r] [n q]; step; fin).
    all: try (apply looks_rv_of; intros [l|r] [n q]; step; fin).
    - rewrite rvar_of. destruct (svar s x) as [v| | |] eqn:F; cbn [obind]; try done. apply svar_ret in F.
      assert (Q : e_destroy (obj_of v) (r_world (state_of s)) = Ret (tt, RWorld (Z.of_nat (size (s_vars s)) - 1) (s_rest s)))
        by (destruct v; reflexivity).
      rewrite Q. cbn [obind fst snd]. do 2 f_equal. unfold state_of. cbn. rewrite fmap_delete, map_size_delete, F. do 2 f_equal.
      assert (size (s_vars s) <> 0%nat) by (intros E%map_size_empty_inv; by rewrite E, lookup_empty in F). lia.
    - rewrite rvar_of. destruct (svar s z) as [v| | |] eqn:F; cbn [obind]; try done.
      apply looks_of. intros [l|r] [n q]; destruct v; step; fin.
    - rewrite rvar_of. destruct (svar s z) as [v| | |] eqn:F; cbn [obind]; try done.
      apply looks_of. intros [l|r] [n q]; destruct v; step; fin.
  Qed.

  Lemma rexecs_refines (s : sstate W V) (cs : list (rcmd W X V)) : rexecs eqv mf (state_of s) cs = emb (sexecs eqv mf s cs).
  Proof.
    unfold rexecs, sexecs. 
    match goal with |- ofold _ _ ?F = obind (ofold _ _ ?G) _ =>
      enough (H : forall rs s, ofold cs (rs, state_of s) F = emb (ofold cs (rs, s) G)) by apply H end.
    clear s. induction cs as [|c cs IH]; intros rs s; cbn [ofold]; [done|].
    rewrite rexec_refines. destruct (sexec eqv mf s c) as [[r s']| | |]; cbn [obind fst snd]; [apply IH|done..].
  Qed.

  (** ** Chains *)
  Lemma run_chain_spec {T} (mfT : T -> T) (cs : list (rstep W X V T)) v (w : rworld W) :
    run_chain mf mfT cs (obj_of v) w =
    let* '(r, q) := schain cs v (rest w) in
    Ret (match r with inl v => (inl (obj_of v), RWorld (live w) q) | inr x => (inr x, RWorld (live w - 1) q) end).
  Proof.
    revert v w. induction cs as [|c cs IH]; intros v [n q].
    - by destruct v.
    - cbn [run_chain]. destruct v as [l|t].
      + assert (E : schain (c :: cs) (inl l) q = Ret (inl (inl l), q)) by (by destruct c). cbn [rest]. rewrite E. clear E.
        assert (E : run_step mf mfT c (obj_of (inl l)) (RWorld n q) = Ret ((inl (obj_of (inl l)), obj_of (inl (mf l))), RWorld (n + 1) q)).
        { destruct c; cbn [run_step]; step; fin. }
        unfold bind at 1. rewrite E. cbn [obind]. unfold bind at 1. rewrite IH. cbn [rest].
        assert (E' : schain cs (inl l) q = Ret (inl (inl l), q)) by (destruct cs as [|[]]; done). rewrite E'. cbn [obind live].
        step. fin.
      + destruct c as [f|f]; cbn [schain run_step rest].
        * cbn [run_step]. unfold bind at 1. step. destruct (f t q) as [[[[u|x] t'] q']| | |]; try done.
          change (EObj (SRight u) false) with (obj_of (L := V) (inr u)). rewrite IH. step. 
          destruct (schain cs (inr u) q') as [[[v'|x'] q'']| | |]; try done; repeat f_equal; lia.
        * cbn [run_step]. unfold bind at 1. step. destruct (f t q) as [[[[u|x] t'] q']| | |]; try done.
          change (match u with inl l => EObj (SLeft l) true | inr r => EObj (SRight r) false end) with (obj_of u). rewrite IH. step.
          destruct (schain cs u q') as [[[v'|x'] q'']| | |]; try done; repeat f_equal; lia.
  Qed.
  Lemma schain_app {T} (a b : list (rstep W X V T)) v q :
    schain (a ++ b) v q = let* '(r, q) := schain a v q in match r with inl v => schain b v q | inr x => Ret (inr x, q) end.
  Proof.
    revert v q. induction a as [|c a IH]; intros v q; cbn [app].
    - by destruct v.
    - destruct v as [l|t].
      + transitivity (Ret (A := (V + T + X) * W) (inl (inl l), q)); [by destruct c|]. destruct c; cbn [schain obind]; by destruct b as [|[]].
      + destruct c as [f|f]; cbn [schain]; destruct (f t q) as [[[[u|x] t'] q']| | |]; cbn [obind]; try done.
  Qed.
  Lemma schain_error {T} (cs : list (rstep W X V T)) l q : schain cs (inl l) q = Ret (inl (inl l), q).
  Proof. by destruct cs as [|[]]. Qed.
End ResultProps.

Section Others.
  Context {W X : Type}.
  Ltac step := cbv [e_destroy bind ret copied_obj moved_obj destroyed from_left_rv from_right_rv m_of m_none m_value m_destroy m_copy m_get
    m_map m_map_rv m_flatMap m_flatMap_rv m_equal m_size m_empty maybe_fn maybe_of
    leftValue rightValue as_reader as_taker obj_of e_isLeft e_store m_store m_hasValue negb id obind live rest].
  Ltac fin := repeat match goal with
    | |- context [match ?f ?a ?b with Ret _ => _ | _ => _ end] => destruct (f a b) as [?| | |]
    | |- context [let '(_, _) := ?p in _] => destruct p
    | |- context [match ?u with inl _ => _ | inr _ => _ end] => destruct u
    end; try done; repeat f_equal; cbn; try lia; try done.

  Lemma e_try_spec {T R E} (mfE : E -> E) (mfR : R -> R) (catches : X -> option E) (f : effect W X T R) t (w : rworld W) :
    e_try mfE mfR catches (as_reader id f) t w =
    let* '(u, q) := f t (rest w) in
    Ret (match u with
         | inl r => (inl (obj_of (inr r)), RWorld (live w + 1) q)
         | inr x => match catches x with
                    | Some e => (inl (obj_of (inl e)), RWorld (live w + 1) q)
                    | None => (inr x, RWorld (live w) q)
                    end
         end).
  Proof.
    destruct w as [n q]. unfold e_try. step. destruct (f t q) as [[[r|x] q']| | |]; try done.
    - repeat f_equal; lia.
    - destruct (catches x); repeat f_equal; lia.
  Qed.

  Lemma m_copy_spec {T} (o : option T) (w : rworld W) :
    m_copy (maybe_of o) w = Ret (maybe_of o, RWorld (live w + (if o then 1 else 0)) (rest w)).
  Proof. destruct w as [n q], o; step; repeat f_equal; lia. Qed.
  Lemma m_destroy_spec {T} (o : option T) (w : rworld W) :
    m_destroy (maybe_of o) w = Ret (tt, RWorld (live w - (if o then 1 else 0)) (rest w)).
  Proof. destruct w as [n q], o; step; repeat f_equal; lia. Qed.
  Lemma m_get_spec {T} (o : option T) d (w : rworld W) :
    m_get (maybe_of o) d w = Ret (match o with Some t => t | None => d end, RWorld (live w + 1) (rest w)).
  Proof. destruct w as [n q], o; step; repeat f_equal; lia. Qed.
  Lemma m_map_spec {T U} (mf : U -> U) (f : effect W X T U) (o : option T) (w : rworld W) :
    m_map mf (as_reader id f) (maybe_of o) w =
    match o with
    | None => Ret (inl (maybe_of None), w)
    | Some t => let* '(u, q) := f t (rest w) in
                Ret (match u with inl u => (inl (maybe_of (Some u)), RWorld (live w + 1) q) | inr x => (inr x, RWorld (live w) q) end)
    end.
  Proof. destruct w as [n q], o; step; fin. Qed.
  Lemma m_map_rv_spec {T U} (mf : U -> U) (f : effect_rv W X T U) (o : option T) (w : rworld W) :
    m_map_rv mf (as_taker id f) (maybe_of o) w =
    match o with
    | None => Ret (inl (maybe_of None), maybe_of None, w)
    | Some t => let* '(u, t', q) := f t (rest w) in
                Ret (match u with inl u => (inl (maybe_of (Some u)), maybe_of (Some t'), RWorld (live w + 1) q)
                                | inr x => (inr x, maybe_of (Some t'), RWorld (live w) q) end)
    end.
  Proof. destruct w as [n q], o; step; fin. Qed.
  Lemma m_flatMap_spec {T U} (f : reader W X T (mobj U)) (o : option T) (w : rworld W) :
    m_flatMap f (maybe_of o) w = match o with None => Ret (inl (maybe_of None), w) | Some t => f t w end.
  Proof. destruct w as [n q], o; reflexivity. Qed.
  Lemma m_flatMap_rv_spec {T U} (f : taker W X T (mobj U)) (o : option T) (w : rworld W) :
    m_flatMap_rv f (maybe_of o) w =
    match o with
    | None => Ret (inl (maybe_of None), maybe_of None, w)
    | Some t => let* '(u, t', w) := f t w in Ret (u, maybe_of (Some t'), w)
    end.
  Proof. destruct o as [t|]; [|reflexivity]. step. by destruct (f t w) as [[[u t'] w']| | |]. Qed.
  Lemma m_equal_spec {T} (eqv : T -> T -> bool) (a b : option T) (w : rworld W) :
    m_equal eqv (maybe_of a) (maybe_of b) w =
    Ret (match a, b with Some x, Some y => eqv x y | None, None => true | _, _ => false end, w).
  Proof. destruct w as [n q], a, b; step; reflexivity. Qed.

  (** ** lift *)
  Section Lift.
    Context {L T U : Type}.
    Implicit Types (args : list (argument L T)) (w : rworld W).
    Definition weight (a : argument L T) : Z := match a with AMaybe None => 0 | _ => 1 end.
    Fixpoint weights (l : list (argument L T)) : Z := match l with [] => 0 | a :: l => weight a + weights l end.
    Lemma each_copy args w : each arg_copy (map operand_of args) w = Ret (map operand_of args, RWorld (live w + weights args) (rest w)).
    Proof.
      revert w. induction args as [|a args IH]; intros [n q]; cbn [map each weights].
      - cbv [ret live rest]. do 3 f_equal. lia.
      - assert (E : arg_copy (operand_of a) (RWorld n q) = Ret (operand_of a, RWorld (n + weight a) q)).
        { destruct a as [[l|t]|[t|]|t]; cbv [arg_copy operand_of weight e_copy]; step; repeat f_equal; lia. }
        unfold bind at 1. rewrite E. cbn [obind]. unfold bind. rewrite IH. cbn [obind live rest]. cbv [ret]. do 3 f_equal. lia.
    Qed.
    Lemma each_destroy args w : exists us, each arg_destroy (map operand_of args) w = Ret (us, RWorld (live w - weights args) (rest w)).
    Proof.
      revert w. induction args as [|a args IH]; intros [n q]; cbn [map each weights].
      - exists []. cbv [ret live rest]. do 3 f_equal. lia.
      - assert (E : arg_destroy (operand_of a) (RWorld n q) = Ret (tt, RWorld (n - weight a) q)).
        { destruct a as [[l|t]|[t|]|t]; cbv [arg_destroy operand_of weight]; step; repeat f_equal; lia. }
        unfold bind at 1. rewrite E. cbn [obind]. destruct (IH (RWorld (n - weight a) q)) as [us Eu]. exists (tt :: us). unfold bind.
        rewrite Eu. cbn [obind live rest]. cbv [ret]. do 3 f_equal. lia.
    Qed.
    Lemma each_destroyed (ts : list T) w : exists us, each (fun _ => destroyed) ts w = Ret (us, RWorld (live w - Z.of_nat (length ts)) (rest w)).
    Proof.
      revert w. induction ts as [|t ts IH]; intros [n q].
      - exists []. cbn. cbv [ret]. do 3 f_equal. lia.
      - destruct (IH (RWorld (n - 1) q)) as [us Eu]. exists (tt :: us). cbn [each length]. unfold bind at 1, destroyed at 1. cbn [obind live rest].
        unfold bind. rewrite Eu. cbn [obind live rest]. cbv [ret]. do 3 f_equal. lia.
    Qed.
    Lemma has_values args : all_true (map has_value (map operand_of args)) = match mapM carried args with Some _ => true | None => false end.
    Proof.
      induction args as [|a args IH]; [done|]. cbn [map all_true]. rewrite IH.
      destruct a as [[l|t]|[t|]|t]; cbn; try done; by destruct (mapM carried args).
    Qed.
    Lemma each_unpack args ts w : mapM carried args = Some ts ->
      each unpack (map operand_of args) w = Ret (ts, RWorld (live w + Z.of_nat (length ts)) (rest w)).
    Proof.
      revert ts w. induction args as [|a args IH]; intros ts [n q] H.
      - injection H as <-. cbn. cbv [ret]. do 3 f_equal. lia.
      - cbn in H. destruct (carried a) as [t|] eqn:Ea; [|done]. cbn in H. destruct (mapM carried args) as [us|] eqn:Em; [|done]. cbn in H.
        injection H as <-. cbn [map each].
        assert (E : unpack (operand_of a) (RWorld n q) = Ret (t, RWorld (n + 1) q)).
        { destruct a as [[l|t']|[t'|]|t']; cbn in Ea; try done; injection Ea as ->; reflexivity. }
        unfold bind at 1. rewrite E. cbn [obind]. unfold bind. rewrite (IH us) by done. cbn [obind live rest length]. cbv [ret]. do 3 f_equal. lia.
    Qed.
    Lemma e_lift_spec (f : effect W X (list T) U) args w :
      e_lift (as_reader id f) (map operand_of args) w =
      match mapM carried args with
      | None => Ret (inl (maybe_of None), w)
      | Some ts => let* '(u, q) := f ts (rest w) in
                   Ret (match u with inl u => (inl (maybe_of (Some u)), RWorld (live w + 1) q) | inr x => (inr x, RWorld (live w) q) end)
      end.
    Proof.
      destruct w as [n q]. unfold e_lift. unfold bind at 1. rewrite each_copy. cbn [obind live rest]. unfold bind at 1. rewrite has_values.
      destruct (mapM carried args) as [ts|] eqn:Em.
      - unfold bind at 1. rewrite (each_unpack _ ts) by done. cbn [obind live rest]. unfold bind at 1, as_reader. cbn [live rest].
        destruct (f ts q) as [[[u|x] q']| | |]; cbn [obind]; try done.
        + destruct (each_destroyed ts (RWorld (n + weights args + Z.of_nat (length ts) + 1) q')) as [us Eu]. unfold bind at 1. rewrite Eu.
          cbn [obind live rest]. unfold bind at 1, moved_obj. cbn [obind live rest]. unfold bind at 1, destroyed at 1. cbn [obind live rest ret].
          edestruct each_destroy as [vs Ev]. unfold bind at 1. rewrite Ev. cbn [obind live rest ret]. cbv [ret]. do 3 f_equal. lia.
        + destruct (each_destroyed ts (RWorld (n + weights args + Z.of_nat (length ts)) q')) as [us Eu]. unfold bind at 1. rewrite Eu.
          cbn [obind live rest ret]. edestruct each_destroy as [vs Ev]. unfold bind at 1. rewrite Ev. cbn [obind live rest]. cbv [ret]. do 3 f_equal. lia.
      - unfold bind at 1, m_none. cbn [ret obind]. edestruct each_destroy as [vs Ev]. unfold bind at 1. rewrite Ev.
        cbn [obind live rest]. cbv [ret]. do 3 f_equal. lia.
    Qed.
  End Lift.
End Others.

(** ** The parameter checks *)
Section ParamChains.
  Context {W : Type} (hw rd : Z) (residue mp : params -> params) (ms : status -> status).
  (** the outcome of a chain, from the outcome of the checks on plain values *)
  Definition checked (o : outcome (either params)) (w : rworld W) : outcome ((eobj status params + exn) * rworld W) :=
    match o with
    | Ret e => Ret (inl (obj_of (sum_of e)), w)
    | Throw x => Ret (inr x, RWorld (live w - 1) (rest w))
    | UB k => UB k
    | OutOfFuel => OutOfFuel
    end.
  Notation chk o q := (match o with
    | Ret e => Ret (inl (sum_of e), q) | Throw x => Ret (inr x, q) | UB k => UB k | OutOfFuel => OutOfFuel end).
  Lemma schain_flat f cs e (q : W) (k : either params -> outcome (either params)) :
    (forall e, schain cs (sum_of e) q = chk (k e) q) ->
    schain (flat residue f :: cs) (sum_of e) q = chk (obind (right_flat_map e f) k) q.
  Proof.
    intros H. destruct e as [s|p]; cbn [sum_of schain flat right_flat_map obind].
    - rewrite <- (H (Left s)). cbn [sum_of]. by rewrite schain_error.
    - destruct (f p) as [e| | |]; cbn [obind]; try done.
  Qed.
  Lemma schain_plain f cs e (q : W) (k : either params -> outcome (either params)) :
    (forall e, schain cs (sum_of e) q = chk (k e) q) ->
    schain (plain residue f :: cs) (sum_of e) q = chk (obind (right_map e f) k) q.
  Proof.
    intros H. destruct e as [s|p]; cbn [sum_of schain plain right_map obind].
    - rewrite <- (H (Left s)). cbn [sum_of]. by rewrite schain_error.
    - destruct (f p) as [e| | |]; cbn [obind]; try done. apply (H (Right e)).
  Qed.
  Lemma obind_assoc {A B C} (o : outcome A) (f : A -> outcome B) (g : B -> outcome C) : obind (obind o f) g = obind o (fun a => obind (f a) g).
  Proof. by destruct o. Qed.
  Lemma classifier_chain e (w : rworld W) :
    run_chain ms mp (classifier_checks hw rd residue) (obj_of (sum_of e)) w = checked (classifier_pipeline hw rd e) w.
  Proof.
    rewrite run_chain_spec. unfold classifier_checks.
    assert (E : schain (classifier_checks hw rd residue) (sum_of e) (rest w) = chk (classifier_pipeline hw rd e) (rest w)).
    { unfold classifier_checks, classifier_pipeline. rewrite !obind_assoc. cbn [obind].
      do 7 (apply schain_flat; intros ?). do 2 (apply schain_plain; intros ?). do 1 (apply schain_flat; intros ?).
      match goal with |- _ = match right_flat_map ?x ?f with _ => _ end => 
        pose proof (schain_flat f [] x (rest w) (fun e => Ret e) (fun e => eq_refl)) as Q end.
      rewrite Q. unfold obind. destruct (right_flat_map _ _); done. }
    unfold classifier_checks in E. rewrite E. destruct (classifier_pipeline hw rd e) as [e'| | |]; cbn; try done. by destruct w.
  Qed.
  Lemma regressor_chain e (w : rworld W) :
    run_chain ms mp (regressor_checks hw rd residue) (obj_of (sum_of e)) w = checked (regressor_pipeline hw rd e) w.
  Proof.
    rewrite run_chain_spec. unfold regressor_checks.
    assert (E : schain (regressor_checks hw rd residue) (sum_of e) (rest w) = chk (regressor_pipeline hw rd e) (rest w)).
    { unfold regressor_checks, regressor_pipeline. rewrite !obind_assoc. cbn [obind].
      do 7 (apply schain_flat; intros ?). do 2 (apply schain_plain; intros ?). do 2 (apply schain_flat; intros ?).
      match goal with |- _ = match right_flat_map ?x ?f with _ => _ end => 
        pose proof (schain_flat f [] x (rest w) (fun e => Ret e) (fun e => eq_refl)) as Q end.
      rewrite Q. unfold obind. destruct (right_flat_map _ _); done. }
    unfold regressor_checks in E. rewrite E. destruct (regressor_pipeline hw rd e) as [e'| | |]; cbn; try done. by destruct w.
  Qed.
End ParamChains.

(** ** Statements of the properties *)
Section Statements.
  Context {W X V : Type} (eqv : V -> V -> bool) (mf : V -> V).
  Lemma state0 (q : W) : state_of (V := V) (SState ∅ q) = RState ∅ (RWorld 0 q).
  Proof. unfold state_of. cbn [s_vars s_rest]. by rewrite fmap_empty. Qed.
  Lemma results_are_sums (cs : list (rcmd W X V)) (q : W) :
    rexecs eqv mf (RState ∅ (RWorld 0 q)) cs = let* '(rs, s) := sexecs eqv mf (SState ∅ q) cs in Ret (rs, state_of s).
  Proof. rewrite <- state0, rexecs_refines. by destruct (sexecs eqv mf (SState ∅ q) cs) as [[]| | |]. Qed.
  Lemma no_content_leaks (cs : list (rcmd W X V)) (q : W) rs s :
    rexecs eqv mf (RState ∅ (RWorld 0 q)) cs = Ret (rs, s) ->
    live (r_world s) = Z.of_nat (size (r_vars s)) /\ (r_vars s = ∅ -> live (r_world s) = 0).
  Proof.
    rewrite results_are_sums. destruct (sexecs eqv mf (SState ∅ q) cs) as [[rs' s']| | |]; cbn [obind]; try done.
    intros E. assert (Es : s = state_of s') by congruence. subst s. cbn. rewrite map_size_fmap.
    split; [done|]. intros E0. by rewrite (fmap_empty_inv _ _ E0).
  Qed.
  Lemma mapping_consumes (v : V) (f : effect_rv W X V V) (q : W) : mf v <> v ->
    (exists s, rexecs eqv mf (RState ∅ (RWorld 0 q)) [RLeftOf "y" v; RLeftValue "y"; RRightMapRv "x" "y" f; RLeftValue "y"]
       = Ret ([RNone; RMaybe (Some v); RNone; RMaybe (Some (mf v))], s)) /\
    (exists s, rexecs eqv mf (RState ∅ (RWorld 0 q)) [RRightOf "y" v; RRightValue "y"; RLeftMapRv "x" "y" f; RRightValue "y"]
       = Ret ([RNone; RMaybe (Some v); RNone; RMaybe (Some (mf v))], s)) /\
    ~ (forall rs s, rexecs (X := X) eqv mf (RState ∅ (RWorld 0 q)) [RRightOf "y" v; RLeftMapRv "x" "y" f; RRightValue "y"] = Ret (rs, s) ->
         rs = [RNone; RNone; RMaybe (Some v)]).
  Proof.
    intros Hv. split; [eexists; reflexivity|]. split; [eexists; reflexivity|].
    intros H. eassert (E : rexecs (X := X) eqv mf (RState ∅ (RWorld 0 q)) [RRightOf "y" v; RLeftMapRv "x" "y" f; RRightValue "y"] =
      Ret ([RNone; RNone; RMaybe (Some (mf v))], _)) by reflexivity.
    apply H in E. congruence.
  Qed.
  Lemma copyable_kept (v : V) (f : effect W X V V) (q : W) :
    exists s, rexecs eqv mf (RState ∅ (RWorld 0 q)) [RRightOf "y" v; RLeftMap "x" "y" f; RRightValue "y"]
       = Ret ([RNone; RNone; RMaybe (Some v)], s).
  Proof. eexists. reflexivity. Qed.
  Lemma chains {T} (mfT : T -> T) (cs cs' : list (rstep W X V T)) (v : V + T) (l : V) (w : rworld W) :
    run_chain mf mfT cs (obj_of v) w =
      (let* '(r, q) := schain cs v (rest w) in
       Ret (match r with inl v => (inl (obj_of v), RWorld (live w) q) | inr x => (inr x, RWorld (live w - 1) q) end)) /\
    run_chain mf mfT cs (obj_of (inl l)) w = Ret (inl (obj_of (inl l)), w) /\
    schain (cs ++ cs') v (rest w) =
      (let* '(r, q) := schain cs v (rest w) in match r with inl v => schain cs' v q | inr x => Ret (inr x, q) end).
  Proof.
    split; [apply run_chain_spec|]. split; [|apply schain_app]. rewrite run_chain_spec, schain_error. by destruct w.
  Qed.
End Statements.

Lemma maybe_spec {W X T U : Type} (eqv : T -> T -> bool) (mf : U -> U) (o o' : option T) (d : T) (f : effect W X T U)
    (g : reader W X T (mobj U)) (w : rworld W) :
  m_get (maybe_of o) d w = Ret (match o with Some t => t | None => d end, RWorld (live w + 1) (rest w)) /\
  m_copy (maybe_of o) w = Ret (maybe_of o, RWorld (live w + (if o then 1 else 0)) (rest w)) /\
  m_destroy (maybe_of o) w = Ret (tt, RWorld (live w - (if o then 1 else 0)) (rest w)) /\
  m_map mf (as_reader id f) (maybe_of o) w =
    match o with
    | None => Ret (inl (maybe_of None), w)
    | Some t => let* '(u, q) := f t (rest w) in
                Ret (match u with inl u => (inl (maybe_of (Some u)), RWorld (live w + 1) q) | inr x => (inr x, RWorld (live w) q) end)
    end /\
  m_flatMap g (maybe_of o) w = match o with None => Ret (inl (maybe_of None), w) | Some t => g t w end /\
  m_equal eqv (maybe_of o) (maybe_of o') w =
    Ret (match o, o' with Some x, Some y => eqv x y | None, None => true | _, _ => false end, w).
Proof.
  split; [apply m_get_spec|]. split; [apply m_copy_spec|]. split; [apply m_destroy_spec|]. split; [apply m_map_spec|].
  split; [apply m_flatMap_spec|]. apply m_equal_spec.
Qed.
Lemma parameter_chains {W : Type} (hw rd : Z) (residue mp : params -> params) (ms : status -> status) (p : params) (w : rworld W) :
  run_chain ms mp (classifier_checks hw rd residue) (obj_of (inr p)) w =
    match classifier_pipeline hw rd (Right p) with
    | Ret (Right p') => Ret (inl (obj_of (inr p')), w)
    | Ret (Left s) => Ret (inl (obj_of (inl s)), w)
    | Throw x => Ret (inr x, RWorld (live w - 1) (rest w))
    | UB k => UB k
    | OutOfFuel => OutOfFuel
    end /\
  run_chain ms mp (regressor_checks hw rd residue) (obj_of (inr p)) w =
    match regressor_pipeline hw rd (Right p) with
    | Ret (Right p') => Ret (inl (obj_of (inr p')), w)
    | Ret (Left s) => Ret (inl (obj_of (inl s)), w)
    | Throw x => Ret (inr x, RWorld (live w - 1) (rest w))
    | UB k => UB k
    | OutOfFuel => OutOfFuel
    end.
Proof.
  split.
  - etransitivity; [exact (classifier_chain hw rd residue mp ms (Right p) w)|]. by destruct (classifier_pipeline hw rd (Right p)) as [[]| | |].
  - etransitivity; [exact (regressor_chain hw rd residue mp ms (Right p) w)|]. by destruct (regressor_pipeline hw rd (Right p)) as [[]| | |].
Qed.
