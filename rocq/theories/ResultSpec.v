(** * Specification of the result type: a result is a value of the sum type [V + V].  Nothing here mentions unions, flags, temporaries
      or lifetimes. *)
From Verif Require Import Results.
From stdpp Require Import stringmap.
Local Open Scope Z_scope.

Section ResultSpec.
  Context {W X V : Type} (eqv : V -> V -> bool) (mf : V -> V).
  (** the variables and the rest of the program's state *)
  Record sstate := SState { s_vars : stringmap (V + V); s_rest : W }.
  Definition svar (s : sstate) (y : string) : outcome (V + V) := match s_vars s !! y with Some v => Ret v | None => UB EmptyDeref end.
  Definition snew (s : sstate) (x : string) : outcome unit := match s_vars s !! x with Some _ => UB EmptyDeref | None => Ret tt end.
  Definition sdeclare (s : sstate) (x : string) (v : V + V) : outcome (rres X V * sstate) :=
    let* _ := snew s x in Ret (RNone, SState (<[x := v]> (s_vars s)) (s_rest s)).

  (** [x] becomes what [k] makes of the value of [y]; [y] keeps its value *)
  Definition smap (s : sstate) (x y : string) (k : V + V -> W -> outcome ((V + V + X) * W)) : outcome (rres X V * sstate) :=
    let* _ := snew s x in
    let* v := svar s y in
    let* '(r, q) := k v (s_rest s) in
    match r with inl n => Ret (RNone, SState (<[x := n]> (s_vars s)) q) | inr e => Ret (RThrown e, SState (s_vars s) q) end.
  (** the same, and [y] becomes what is left of it *)
  Definition smap_rv (s : sstate) (x y : string) (k : V + V -> W -> outcome ((V + V + X) * (V + V) * W)) : outcome (rres X V * sstate) :=
    let* _ := snew s x in
    let* v := svar s y in
    let* '(r, v', q) := k v (s_rest s) in
    match r with
    | inl n => Ret (RNone, SState (<[x := n]> (<[y := v']> (s_vars s))) q)
    | inr e => Ret (RThrown e, SState (<[y := v']> (s_vars s)) q)
    end.
  Definition slook (s : sstate) (y : string) (k : V + V -> W -> outcome (rres X V * W)) : outcome (rres X V * sstate) :=
    let* v := svar s y in let* '(r, q) := k v (s_rest s) in Ret (r, SState (s_vars s) q).
  Definition slook_rv (s : sstate) (y : string) (k : V + V -> W -> outcome (rres X V * (V + V) * W)) : outcome (rres X V * sstate) :=
    let* v := svar s y in let* '(r, v', q) := k v (s_rest s) in Ret (r, SState (<[y := v']> (s_vars s)) q).

  (** apply a function to a value: a side [mk] of the result, or the exception *)
  Definition called {A B C} (f : effect W X A B) (mk : B -> C) (a : A) (q : W) : outcome ((C + X) * W) :=
    let* '(u, q) := f a q in Ret (match u with inl b => inl (mk b) | inr x => inr x end, q).
  Definition called_rv {A B C D} (f : effect_rv W X A B) (mk : B -> C) (back : A -> D) (a : A) (q : W) : outcome ((C + X) * D * W) :=
    let* '(u, a', q) := f a q in Ret (match u with inl b => inl (mk b) | inr x => inr x end, back a', q).
  Definition said (u : V + X) : rres X V := match u with inl v => RValue v | inr x => RThrown x end.
  (** what a move leaves of a result: the same side *)
  Definition left_over (v : V + V) : V + V := match v with inl l => inl (mf l) | inr r => inr (mf r) end.

  Definition sexec (s : sstate) (c : rcmd W X V) : outcome (rres X V * sstate) :=
    match c with
    | RLeftOf x v | RLeftOfTemp x v => sdeclare s x (inl v)
    | RRightOf x v | RRightOfTemp x v => sdeclare s x (inr v)
    | RCopy x y => smap s x y (fun v q => Ret (inl v, q))
    | RMove x y => smap_rv s x y (fun v q => Ret (inl v, left_over v, q))
    | REnd x => let* _ := svar s x in Ret (RNone, SState (delete x (s_vars s)) (s_rest s))
    | RLeftMap x y f => smap s x y (fun v q => match v with inl l => called f inl l q | inr r => Ret (inl (inr r), q) end)
    | RRightMap x y f => smap s x y (fun v q => match v with inl l => Ret (inl (inl l), q) | inr r => called f inr r q end)
    | RLeftFlatMap x y f => smap s x y (fun v q => match v with inl l => called f id l q | inr r => Ret (inl (inr r), q) end)
    | RRightFlatMap x y f => smap s x y (fun v q => match v with inl l => Ret (inl (inl l), q) | inr r => called f id r q end)
    | RLeftMapRv x y f => smap_rv s x y (fun v q =>
        match v with inl l => called_rv f inl inl l q | inr r => Ret (inl (inr r), inr (mf r), q) end)
    | RRightMapRv x y f => smap_rv s x y (fun v q =>
        match v with inl l => Ret (inl (inl l), inl (mf l), q) | inr r => called_rv f inr inr r q end)
    | RLeftFlatMapRv x y f => smap_rv s x y (fun v q =>
        match v with inl l => called_rv f id inl l q | inr r => Ret (inl (inr r), inr (mf r), q) end)
    | RRightFlatMapRv x y f => smap_rv s x y (fun v q =>
        match v with inl l => Ret (inl (inl l), inl (mf l), q) | inr r => called_rv f id inr r q end)
    | RJoin y => slook s y (fun v q => Ret (RValue (match v with inl l => l | inr r => r end), q))
    | RJoinRv y => slook_rv s y (fun v q => Ret (RValue (match v with inl l => l | inr r => r end), left_over v, q))
    | RCases y f g => slook s y (fun v q =>
        let* '(u, q) := match v with inl l => f l q | inr r => g r q end in Ret (said u, q))
    | RCasesRv y f g => slook_rv s y (fun v q =>
        let* '(u, v', q) := match v with inl l => called_rv f id inl l q | inr r => called_rv g id inr r q end in Ret (said u, v', q))
    | RBool y => slook s y (fun v q => Ret (RBit (match v with inl _ => false | inr _ => true end), q))
    | RLeftValue y => slook s y (fun v q => Ret (RMaybe (match v with inl l => Some l | inr _ => None end), q))
    | RRightValue y => slook s y (fun v q => Ret (RMaybe (match v with inl _ => None | inr r => Some r end), q))
    | REqual y z => let* b := svar s z in slook s y (fun a q =>
        Ret (RBit (match a, b with inl l, inl l' => eqv l l' | inr r, inr r' => eqv r r' | _, _ => false end), q))
    | RUnequal y z => let* b := svar s z in slook s y (fun a q =>
        Ret (RBit (match a, b with inl l, inl l' => negb (eqv l l') | inr r, inr r' => negb (eqv r r') | _, _ => true end), q))
    end.
  Definition sexecs (s : sstate) (cs : list (rcmd W X V)) : outcome (list (rres X V) * sstate) :=
    ofold cs ([], s) (fun c '(rs, s) => let* '(r, s) := sexec s c in Ret (rs ++ [r], s)).

  (** a chain of steps: an error is passed on, and the functions behind it are not called *)
  Fixpoint schain {T} (cs : list (rstep W X V T)) (v : V + T) (q : W) : outcome ((V + T + X) * W) :=
    match cs, v with
    | [], _ | _, inl _ => Ret (inl v, q)
    | StepMap f :: cs, inr t =>
        let* '(u, _, q) := f t q in match u with inl t => schain cs (inr t) q | inr x => Ret (inr x, q) end
    | StepFlatMap f :: cs, inr t =>
        let* '(u, _, q) := f t q in match u with inl v => schain cs v q | inr x => Ret (inr x, q) end
    end.

  (** the program state that stands for [s]: every variable is a union whose member and flag agree, and exactly one object of a
      content type is alive for each variable *)
  Definition state_of (s : sstate) : rstate W V :=
    RState (obj_of <$> s_vars s) (RWorld (Z.of_nat (size (s_vars s))) (s_rest s)).
End ResultSpec.

(** ** Optional values, Try and lift *)
(** the Maybe that stands for an optional value *)
Definition maybe_of {T} (o : option T) : mobj T := MObj o (match o with Some _ => true | None => false end).
(** arguments of a lifted function, and the value each one carries *)
Inductive argument (L T : Type) := AEither (v : L + T) | AMaybe (o : option T) | AValue (t : T).
Arguments AEither {L T} v. Arguments AMaybe {L T} o. Arguments AValue {L T} t.
Definition operand_of {L T} (a : argument L T) : operand L T :=
  match a with AEither v => OEither (obj_of v) | AMaybe o => OMaybe (maybe_of o) | AValue t => OValue t end.
Definition carried {L T} (a : argument L T) : option T :=
  match a with AEither (inr t) | AMaybe (Some t) | AValue t => Some t | _ => None end.
Arguments sstate : clear implicits.
