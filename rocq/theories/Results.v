(** * Model of the result type of the API: lib/include/either.hpp:13-14 (Tsetlini::Either = neither::Either), neither/either.hpp,
      neither/maybe.hpp, neither/try.hpp and neither/lift.hpp.

    An Either is an anonymous union and a constant flag.  The model keeps, for each union, which member is alive: reading or
    destroying a member that is not alive is undefined behaviour.  [live] counts the objects of the two content types that have
    been constructed and not yet destroyed, temporaries included.  The functions passed to an Either are arbitrary: they read and
    write the rest of the program's state and may throw; a function that is given an rvalue may change what it was given.

    Simplified: the copy and move constructors of the contents do not throw and have no effect on the rest of the program.  Copies
    of prvalues are elided as C++17 requires.  Proofs are elsewhere. *)
From Verif Require Export Base.
From stdpp Require Import stringmap.
Local Open Scope Z_scope.

Section Results.
  (** [W] the rest of the program's state; [X] the exceptions *)
  Context {W X : Type}.
  Record rworld := RWorld { live : Z; rest : W }.
  Definition act (T : Type) : Type := rworld -> outcome (T * rworld).
  Definition ret {T} (t : T) : act T := fun w => Ret (t, w).
  Definition bind {T U} (m : act T) (k : T -> act U) : act U := fun w => let* '(t, w) := m w in k t w.
  Definition undefined {T} : act T := fun _ => UB EmptyDeref.
  Local Notation "'do' x <- m ; k" := (bind m (fun x => k)) (at level 200, x name, m at level 100, k at level 200).
  Local Notation "'do' ' p <- m ; k" := (bind m (fun p => k)) (at level 200, p strict pattern, m at level 100, k at level 200).

  (** ** Objects of a content type *)
  (** copy construction *)
  Definition copied_obj {T} (t : T) : act T := fun w => Ret (t, RWorld (live w + 1) (rest w)).
  (** move construction: the new object, and what is left of the old one *)
  Definition moved_obj {T} (moved_from : T -> T) (t : T) : act (T * T) :=
    fun w => Ret ((t, moved_from t), RWorld (live w + 1) (rest w)).
  Definition destroyed : act unit := fun w => Ret (tt, RWorld (live w - 1) (rest w)).

  (** functions given to an Either: by const reference, and by rvalue reference (what is left of the argument is the second
      component).  The result is a new object or an exception. *)
  Definition reader (T U : Type) : Type := T -> act (U + X).
  Definition taker (T U : Type) : Type := T -> act ((U + X) * T).

  (** ** Either *)
  Inductive store (L R : Type) := SNothing | SLeft (l : L) | SRight (r : R).
  Arguments SNothing {L R}. Arguments SLeft {L R} l. Arguments SRight {L R} r.
  (** either.hpp:47-55 *)
  Record eobj (L R : Type) := EObj { e_store : store L R; e_isLeft : bool }.
  Arguments EObj {L R} e_store e_isLeft. Arguments e_store {L R} e. Arguments e_isLeft {L R} e.

  (** reading a member of the union *)
  Definition leftValue {L R} (o : eobj L R) : act L := match e_store o with SLeft l => ret l | _ => undefined end.
  Definition rightValue {L R} (o : eobj L R) : act R := match e_store o with SRight r => ret r | _ => undefined end.
  (** what an access through an rvalue reference leaves in the member *)
  Definition set_left {L R} (o : eobj L R) (l : L) : eobj L R := EObj (SLeft l) (e_isLeft o).
  Definition set_right {L R} (o : eobj L R) (r : R) : eobj L R := EObj (SRight r) (e_isLeft o).

  Section Construct.
    Context {L R : Type} (mfL : L -> L) (mfR : R -> R).
    (** Either(Left<L> const &), 57-60; Either(Right<R> const &), 62-65: the holder's value is copied *)
    Definition from_left (l : L) : act (eobj L R) := do l <- copied_obj l; ret (EObj (SLeft l) true).
    Definition from_right (r : R) : act (eobj L R) := do r <- copied_obj r; ret (EObj (SRight r) false).
    (** Either(Left<L> &&), 67-70; Either(Right<R> &&), 72-75: with what is left in the holder *)
    Definition from_left_rv (l : L) : act (eobj L R * L) := do '(l, l') <- moved_obj mfL l; ret (EObj (SLeft l) true, l').
    Definition from_right_rv (r : R) : act (eobj L R * R) := do '(r, r') <- moved_obj mfR r; ret (EObj (SRight r) false, r').
    (** Either(Either const &), 77-84 *)
    Definition e_copy (o : eobj L R) : act (eobj L R) :=
      if e_isLeft o then do l <- leftValue o; do l <- copied_obj l; ret (EObj (SLeft l) (e_isLeft o))
      else do r <- rightValue o; do r <- copied_obj r; ret (EObj (SRight r) (e_isLeft o)).
    (** Either(Either &&), 86-93: the new object and the old one *)
    Definition e_move (o : eobj L R) : act (eobj L R * eobj L R) :=
      if e_isLeft o then do l <- leftValue o; do '(l, l') <- moved_obj mfL l; ret (EObj (SLeft l) (e_isLeft o), set_left o l')
      else do r <- rightValue o; do '(r, r') <- moved_obj mfR r; ret (EObj (SRight r) (e_isLeft o), set_right o r').
    (** ~Either, 95-101 *)
    Definition e_destroy (o : eobj L R) : act unit :=
      if e_isLeft o then do _ <- leftValue o; destroyed else do _ <- rightValue o; destroyed.
    (** leftOf(L const &), 115-117, with neither::left(T const &), 21-24: the value is copied into a holder, which is then moved
        from and destroyed *)
    Definition leftOf (l : L) : act (eobj L R) := do h <- copied_obj l; do '(o, _) <- from_left_rv h; do _ <- destroyed; ret o.
    (** rightOf(R const &), 119-121, 36-39 *)
    Definition rightOf (r : R) : act (eobj L R) := do h <- copied_obj r; do '(o, _) <- from_right_rv h; do _ <- destroyed; ret o.
    (** leftOf(L &&), 123-125, with neither::left(T &&), 26-29 *)
    Definition leftOf_rv (l : L) : act (eobj L R * L) :=
      do '(h, l') <- moved_obj mfL l; do '(o, _) <- from_left_rv h; do _ <- destroyed; ret (o, l').
    (** rightOf(R &&), 127-129, 42-45 *)
    Definition rightOf_rv (r : R) : act (eobj L R * R) :=
      do '(h, r') <- moved_obj mfR r; do '(o, _) <- from_right_rv h; do _ <- destroyed; ret (o, r').
  End Construct.

  (** operator bool, 300 *)
  Definition e_bool {L R} (o : eobj L R) : bool := negb (e_isLeft o).

  (** ** Maybe, maybe.hpp:15-102 *)
  Record mobj (T : Type) := MObj { m_store : option T; m_hasValue : bool }.
  Arguments MObj {T} m_store m_hasValue. Arguments m_store {T} m. Arguments m_hasValue {T} m.
  Definition m_value {T} (o : mobj T) : act T := match m_store o with Some t => ret t | None => undefined end.
  (** Maybe(), 26; Maybe(Maybe<void>), 31 *)
  Definition m_none {T} : act (mobj T) := ret (MObj None false).
  (** Maybe(T const &), 28 *)
  Definition m_of {T} (t : T) : act (mobj T) := do t <- copied_obj t; ret (MObj (Some t) true).
  (** maybe(T value), 104-105: the argument is a copy, which is copied again *)
  Definition maybe_fn {T} (t : T) : act (mobj T) := do t <- copied_obj t; do o <- m_of t; do _ <- destroyed; ret o.
  (** Maybe(Maybe<T> const &), 33-37 *)
  Definition m_copy {T} (o : mobj T) : act (mobj T) :=
    if m_hasValue o then do t <- m_value o; do t <- copied_obj t; ret (MObj (Some t) (m_hasValue o))
    else ret (MObj None (m_hasValue o)).
  (** ~Maybe, 39-43 *)
  Definition m_destroy {T} (o : mobj T) : act unit := if m_hasValue o then do _ <- m_value o; destroyed else ret tt.
  (** get, 45-47: the default is an argument passed by value *)
  Definition m_get {T} (o : mobj T) (d : T) : act T :=
    do d <- copied_obj d;
    do t <- (if m_hasValue o then do t <- m_value o; copied_obj t else copied_obj d);
    do _ <- destroyed; ret t.
  (** size, 54; empty, 56; operator bool, 101 *)
  Definition m_size {T} (o : mobj T) : Z := if m_hasValue o then 1 else 0.
  Definition m_empty {T} (o : mobj T) : bool := negb (m_hasValue o).
  (** map const &, 58-66: Maybe(T &&), 29, moves from the function's result *)
  Definition m_map {T U} (mfU : U -> U) (f : reader T U) (o : mobj T) : act (mobj U + X) :=
    if negb (m_hasValue o) then do n <- m_none; ret (inl n)
    else do t <- m_value o; do u <- f t;
         match u with
         | inr x => ret (inr x)
         | inl u => do '(u, _) <- moved_obj mfU u; do _ <- destroyed; ret (inl (MObj (Some u) true))
         end.
  (** flatMap const &, 79-88 *)
  Definition m_flatMap {T U} (f : reader T (mobj U)) (o : mobj T) : act (mobj U + X) :=
    if negb (m_hasValue o) then do n <- m_none; ret (inl n) else do t <- m_value o; f t.
  (** map &&, 69-77; flatMap &&, 90-99 *)
  Definition m_map_rv {T U} (mfU : U -> U) (f : taker T U) (o : mobj T) : act ((mobj U + X) * mobj T) :=
    if negb (m_hasValue o) then do n <- m_none; ret (inl n, o)
    else do t <- m_value o; do '(u, t') <- f t;
         match u with
         | inr x => ret (inr x, MObj (Some t') (m_hasValue o))
         | inl u => do '(u, _) <- moved_obj mfU u; do _ <- destroyed; ret (inl (MObj (Some u) true), MObj (Some t') (m_hasValue o))
         end.
  Definition m_flatMap_rv {T U} (f : taker T (mobj U)) (o : mobj T) : act ((mobj U + X) * mobj T) :=
    if negb (m_hasValue o) then do n <- m_none; ret (inl n, o)
    else do t <- m_value o; do '(u, t') <- f t; ret (u, MObj (Some t') (m_hasValue o)).
  (** equal, 117-123 *)
  Definition m_equal {T} (eqb : T -> T -> bool) (a b : mobj T) : act bool :=
    if m_hasValue a then
      if m_hasValue b then do x <- m_value a; do y <- m_value b; ret (eqb x y) else ret false
    else ret (negb (m_hasValue b)).

  (** ** Reading an Either *)
  (** left(), 103-107; right(), 109-113 *)
  Definition e_left {L R} (o : eobj L R) : act (mobj L) := if e_isLeft o then do l <- leftValue o; maybe_fn l else m_none.
  Definition e_right {L R} (o : eobj L R) : act (mobj R) := if e_isLeft o then m_none else do r <- rightValue o; maybe_fn r.
  (** operator==, 303-315 *)
  Definition e_equal {L R} (eqL : L -> L -> bool) (eqR : R -> R -> bool) (a b : eobj L R) : act bool :=
    if e_isLeft a then
      if e_isLeft b then do x <- e_left a; do y <- e_left b; do q <- m_equal eqL x y; do _ <- m_destroy y; do _ <- m_destroy x; ret q
      else ret false
    else if negb (e_isLeft b) then
      do x <- e_right a; do y <- e_right b; do q <- m_equal eqR x y; do _ <- m_destroy y; do _ <- m_destroy x; ret q
    else ret false.
  (** operator!=, 317-320 *)
  Definition e_unequal {L R} (eqL : L -> L -> bool) (eqR : R -> R -> bool) (a b : eobj L R) : act bool :=
    do q <- e_equal eqL eqR a b; ret (negb q).

  (** join() const, 131-140; join() &&, 142-148, and & for contents that cannot be copied, 150-158; for contents of one type *)
  Definition e_join {T} (o : eobj T T) : act T :=
    if e_isLeft o then do l <- leftValue o; copied_obj l else do r <- rightValue o; copied_obj r.
  Definition e_join_rv {T} (mf : T -> T) (o : eobj T T) : act (T * eobj T T) :=
    if e_isLeft o then do l <- leftValue o; do '(l, l') <- moved_obj mf l; ret (l, set_left o l')
    else do r <- rightValue o; do '(r, r') <- moved_obj mf r; ret (r, set_right o r').
  (** join(leftCase, rightCase) const, 160-164 *)
  Definition e_cases {L R U} (f : reader L U) (g : reader R U) (o : eobj L R) : act (U + X) :=
    if e_isLeft o then do l <- leftValue o; f l else do r <- rightValue o; g r.
  (** join(leftCase, rightCase) &, 166-172 *)
  Definition e_cases_rv {L R U} (f : taker L U) (g : taker R U) (o : eobj L R) : act ((U + X) * eobj L R) :=
    if e_isLeft o then do l <- leftValue o; do '(u, l') <- f l; ret (u, set_left o l')
    else do r <- rightValue o; do '(u, r') <- g r; ret (u, set_right o r').

  Section Map.
    Context {L R L2 R2 : Type} (mfL : L -> L) (mfR : R -> R) (mfL2 : L2 -> L2) (mfR2 : R2 -> R2).
    (** leftMap const &, 174-181: the result of the function is a temporary, moved from and destroyed *)
    Definition e_leftMap (f : reader L L2) (o : eobj L R) : act (eobj L2 R + X) :=
      if e_isLeft o then
        do l <- leftValue o; do u <- f l;
        match u with inr x => ret (inr x) | inl u => do '(n, _) <- leftOf_rv mfL2 u; do _ <- destroyed; ret (inl n) end
      else do r <- rightValue o; do n <- rightOf mfR r; ret (inl n).
    (** leftMap &&, 183-189, and & for contents that cannot be copied, 192-199 (the same body) *)
    Definition e_leftMap_rv (f : taker L L2) (o : eobj L R) : act ((eobj L2 R + X) * eobj L R) :=
      if e_isLeft o then
        do l <- leftValue o; do '(u, l') <- f l;
        match u with
        | inr x => ret (inr x, set_left o l')
        | inl u => do '(n, _) <- leftOf_rv mfL2 u; do _ <- destroyed; ret (inl n, set_left o l')
        end
      else do r <- rightValue o; do '(n, r') <- rightOf_rv mfR r; ret (inl n, set_right o r').
    (** rightMap const &, 201-207 *)
    Definition e_rightMap (f : reader R R2) (o : eobj L R) : act (eobj L R2 + X) :=
      if e_isLeft o then do l <- leftValue o; do n <- leftOf mfL l; ret (inl n)
      else
        do r <- rightValue o; do u <- f r;
        match u with inr x => ret (inr x) | inl u => do '(n, _) <- rightOf_rv mfR2 u; do _ <- destroyed; ret (inl n) end.
    (** rightMap &&, 209-215, and &, 217-224 *)
    Definition e_rightMap_rv (f : taker R R2) (o : eobj L R) : act ((eobj L R2 + X) * eobj L R) :=
      if e_isLeft o then do l <- leftValue o; do '(n, l') <- leftOf_rv mfL l; ret (inl n, set_left o l')
      else
        do r <- rightValue o; do '(u, r') <- f r;
        match u with
        | inr x => ret (inr x, set_right o r')
        | inl u => do '(n, _) <- rightOf_rv mfR2 u; do _ <- destroyed; ret (inl n, set_right o r')
        end.
    (** leftFlatMap const &, 226-236: the Either made by the function is the result *)
    Definition e_leftFlatMap (f : reader L (eobj L2 R)) (o : eobj L R) : act (eobj L2 R + X) :=
      if negb (e_bool o) then do l <- leftValue o; f l
      else do r <- rightValue o; do n <- rightOf mfR r; ret (inl n).
    (** leftFlatMap &&, 250-260, and &, 262-273 *)
    Definition e_leftFlatMap_rv (f : taker L (eobj L2 R)) (o : eobj L R) : act ((eobj L2 R + X) * eobj L R) :=
      if negb (e_bool o) then do l <- leftValue o; do '(u, l') <- f l; ret (u, set_left o l')
      else do r <- rightValue o; do '(n, r') <- rightOf_rv mfR r; ret (inl n, set_right o r').
    (** rightFlatMap const &, 238-248 *)
    Definition e_rightFlatMap (f : reader R (eobj L R2)) (o : eobj L R) : act (eobj L R2 + X) :=
      if e_bool o then do r <- rightValue o; f r
      else do l <- leftValue o; do n <- leftOf mfL l; ret (inl n).
    (** rightFlatMap &&, 275-285, and &, 287-298 *)
    Definition e_rightFlatMap_rv (f : taker R (eobj L R2)) (o : eobj L R) : act ((eobj L R2 + X) * eobj L R) :=
      if e_bool o then do r <- rightValue o; do '(u, r') <- f r; ret (u, set_right o r')
      else do l <- leftValue o; do '(n, l') <- leftOf_rv mfL l; ret (inl n, set_left o l').
  End Map.

  (** ** Try, try.hpp:9-17: an exception of type E (those [catches] accepts) becomes a Left, another one leaves *)
  Definition e_try {T R E : Type} (mfE : E -> E) (mfR : R -> R) (catches : X -> option E) (f : reader T R) (t : T) : act (eobj E R + X) :=
    do u <- f t;
    match u with
    | inl r => (* right(T &&), then Either(Right &&): the temporaries r and the holder are destroyed *)
        do '(h, _) <- moved_obj mfR r; do '(o, _) <- from_right_rv mfR h; do _ <- destroyed; do _ <- destroyed; ret (inl o)
    | inr x =>
        match catches x with
        | Some e => do h <- copied_obj e; do '(o, _) <- from_left_rv mfE h; do _ <- destroyed; ret (inl o)
        | None => ret (inr x)
        end
    end.

  (** ** lift, lift.hpp: the function returned by lift is given copies of its arguments, Eithers, Maybes or plain values *)
  Inductive operand (L T : Type) := OEither (o : eobj L T) | OMaybe (o : mobj T) | OValue (t : T).
  Arguments OEither {L T} o. Arguments OMaybe {L T} o. Arguments OValue {L T} t.
  (** hasValue, 5-19 *)
  Definition has_value {L T} (a : operand L T) : bool :=
    match a with OEither o => e_bool o | OMaybe o => m_hasValue o | OValue _ => true end.
  (** unpack, 23-37: by value *)
  Definition unpack {L T} (a : operand L T) : act T :=
    do t <- (match a with OEither o => rightValue o | OMaybe o => m_value o | OValue t => ret t end); copied_obj t.
  Definition arg_copy {L T} (a : operand L T) : act (operand L T) :=
    match a with
    | OEither o => do o <- e_copy o; ret (OEither o)
    | OMaybe o => do o <- m_copy o; ret (OMaybe o)
    | OValue t => do t <- copied_obj t; ret (OValue t)
    end.
  Definition arg_destroy {L T} (a : operand L T) : act unit :=
    match a with OEither o => e_destroy o | OMaybe o => m_destroy o | OValue _ => destroyed end.
  (** allTrue, 39-47 *)
  Fixpoint all_true (l : list bool) : bool := match l with [] => true | b :: l => b && all_true l end.
  Fixpoint each {A B} (f : A -> act B) (l : list A) : act (list B) :=
    match l with [] => ret [] | a :: l => do b <- f a; do bs <- each f l; ret (b :: bs) end.
  (** lift(f)(x...), 49-58.  A call by value: the arguments are copied, and destroyed when the call ends. *)
  Definition e_lift {L T U} (f : list T -> act (U + X)) (args : list (operand L T)) : act (mobj U + X) :=
    do xs <- each arg_copy args;
    do r <- (if all_true (map has_value xs) then
               do ts <- each unpack xs;
               do u <- f ts;
               do _ <- each (fun _ => destroyed) ts;
               match u with
               | inr x => ret (inr x)
               | inl u => (* Maybe(T &&) *) do '(u, _) <- moved_obj (fun u => u) u; do _ <- destroyed; ret (inl (MObj (Some u) true))
               end
             else do n <- m_none; ret (inl n));
    do _ <- each arg_destroy xs;
    ret r.

  (** ** Programs with Eithers *)
  (** Functions as the program's text gives them: from the argument and the rest of the program's state to a value or an exception,
      for an rvalue also what is left of the argument, and the new state; they may have undefined behaviour of their own.  A function
      destroys what it constructs, except its result: one more object is alive when it returns, none when it throws. *)
  Definition effect (A B : Type) : Type := A -> W -> outcome ((B + X) * W).
  Definition effect_rv (A B : Type) : Type := A -> W -> outcome ((B + X) * A * W).
  Definition as_reader {A B C} (mk : B -> C) (f : effect A B) : reader A C := fun a w =>
    let* '(u, q) := f a (rest w) in
    match u with inl b => Ret (inl (mk b), RWorld (live w + 1) q) | inr x => Ret (inr x, RWorld (live w) q) end.
  Definition as_taker {A B C} (mk : B -> C) (f : effect_rv A B) : taker A C := fun a w =>
    let* '(u, a', q) := f a (rest w) in
    match u with inl b => Ret ((inl (mk b), a'), RWorld (live w + 1) q) | inr x => Ret ((inr x, a'), RWorld (live w) q) end.
  (** the Either a function returns *)
  Definition obj_of {L R} (v : L + R) : eobj L R := match v with inl l => EObj (SLeft l) true | inr r => EObj (SRight r) false end.

  (** [V] the contents, of whatever type; [eqv] their operator==, [mf] what a move leaves *)
  Context {V : Type} (eqv : V -> V -> bool) (mf : V -> V).
  Inductive rcmd :=
  | RLeftOf (x : string) (v : V)                          (* auto x = E::leftOf(v); *)
  | RRightOf (x : string) (v : V)
  | RLeftOfTemp (x : string) (v : V)                      (* auto x = E::leftOf(L(...)); *)
  | RRightOfTemp (x : string) (v : V)
  | RCopy (x y : string)                                  (* auto x(y); *)
  | RMove (x y : string)                                  (* auto x(std::move(y)); *)
  | REnd (x : string)                                     (* x goes out of scope *)
  | RLeftMap (x y : string) (f : effect V V)              (* auto x = y.leftMap(f); y const or with contents that can be copied *)
  | RRightMap (x y : string) (f : effect V V)
  | RLeftFlatMap (x y : string) (f : effect V (V + V))
  | RRightFlatMap (x y : string) (f : effect V (V + V))
  | RLeftMapRv (x y : string) (f : effect_rv V V)         (* auto x = std::move(y).leftMap(f); or y.leftMap(f), y not copyable *)
  | RRightMapRv (x y : string) (f : effect_rv V V)
  | RLeftFlatMapRv (x y : string) (f : effect_rv V (V + V))
  | RRightFlatMapRv (x y : string) (f : effect_rv V (V + V))
  | RJoin (y : string)                                    (* y.join() *)
  | RJoinRv (y : string)                                  (* std::move(y).join() *)
  | RCases (y : string) (f g : effect V V)                (* y.join(f, g) *)
  | RCasesRv (y : string) (f g : effect_rv V V)
  | RBool (y : string)                                    (* bool(y) *)
  | RLeftValue (y : string)                               (* y.left() *)
  | RRightValue (y : string)                              (* y.right() *)
  | REqual (y z : string)                                 (* y == z *)
  | RUnequal (y z : string).
  Inductive rres := RNone | RValue (v : V) | RBit (b : bool) | RMaybe (o : option V) | RThrown (x : X).
  Record rstate := RState { r_vars : stringmap (eobj V V); r_world : rworld }.

  (** a variable that is not in scope (or declared twice) is not a C++ program *)
  Definition rvar (s : rstate) (y : string) : outcome (eobj V V) := match r_vars s !! y with Some o => Ret o | None => UB EmptyDeref end.
  Definition rnew (s : rstate) (x : string) : outcome unit := match r_vars s !! x with Some _ => UB EmptyDeref | None => Ret tt end.
  (** declare x as the result of an operation that reads y, or that changes y *)
  Definition declares (s : rstate) (x : string) (m : act (eobj V V)) : outcome (rres * rstate) :=
    let* _ := rnew s x in
    let* '(o, w) := m (r_world s) in Ret (RNone, RState (<[x := o]> (r_vars s)) w).
  Definition maps (s : rstate) (x y : string) (m : eobj V V -> act (eobj V V + X)) : outcome (rres * rstate) :=
    let* _ := rnew s x in
    let* o := rvar s y in
    let* '(r, w) := m o (r_world s) in
    match r with inl n => Ret (RNone, RState (<[x := n]> (r_vars s)) w) | inr e => Ret (RThrown e, RState (r_vars s) w) end.
  Definition maps_rv (s : rstate) (x y : string) (m : eobj V V -> act ((eobj V V + X) * eobj V V)) : outcome (rres * rstate) :=
    let* _ := rnew s x in
    let* o := rvar s y in
    let* '((r, o'), w) := m o (r_world s) in
    match r with
    | inl n => Ret (RNone, RState (<[x := n]> (<[y := o']> (r_vars s))) w)
    | inr e => Ret (RThrown e, RState (<[y := o']> (r_vars s)) w)
    end.
  (** an expression whose value is looked at and then destroyed *)
  Definition looks (s : rstate) (y : string) (m : eobj V V -> act rres) : outcome (rres * rstate) :=
    let* o := rvar s y in let* '(r, w) := m o (r_world s) in Ret (r, RState (r_vars s) w).
  Definition looks_rv (s : rstate) (y : string) (m : eobj V V -> act (rres * eobj V V)) : outcome (rres * rstate) :=
    let* o := rvar s y in let* '((r, o'), w) := m o (r_world s) in Ret (r, RState (<[y := o']> (r_vars s)) w).
  Definition shown (u : V + X) : act rres := match u with inl v => do _ <- destroyed; ret (RValue v) | inr x => ret (RThrown x) end.
  Definition shown_maybe (o : mobj V) : act rres :=
    do r <- (if m_empty o then ret (RMaybe None) else do v <- m_value o; ret (RMaybe (Some v))); do _ <- m_destroy o; ret r.

  Definition rexec (s : rstate) (c : rcmd) : outcome (rres * rstate) :=
    match c with
    | RLeftOf x v => declares s x (leftOf mf v)
    | RRightOf x v => declares s x (rightOf mf v)
    | RLeftOfTemp x v => declares s x (do t <- copied_obj v; do '(o, _) <- leftOf_rv mf t; do _ <- destroyed; ret o)
    | RRightOfTemp x v => declares s x (do t <- copied_obj v; do '(o, _) <- rightOf_rv mf t; do _ <- destroyed; ret o)
    | RCopy x y => maps s x y (fun o => do n <- e_copy o; ret (inl n))
    | RMove x y => maps_rv s x y (fun o => do '(n, o') <- e_move mf mf o; ret (inl n, o'))
    | REnd x => let* o := rvar s x in let* '(_, w) := e_destroy o (r_world s) in Ret (RNone, RState (delete x (r_vars s)) w)
    | RLeftMap x y f => maps s x y (e_leftMap mf mf (as_reader id f))
    | RRightMap x y f => maps s x y (e_rightMap mf mf (as_reader id f))
    | RLeftFlatMap x y f => maps s x y (e_leftFlatMap mf (as_reader obj_of f))
    | RRightFlatMap x y f => maps s x y (e_rightFlatMap mf (as_reader obj_of f))
    | RLeftMapRv x y f => maps_rv s x y (e_leftMap_rv mf mf (as_taker id f))
    | RRightMapRv x y f => maps_rv s x y (e_rightMap_rv mf mf (as_taker id f))
    | RLeftFlatMapRv x y f => maps_rv s x y (e_leftFlatMap_rv mf (as_taker obj_of f))
    | RRightFlatMapRv x y f => maps_rv s x y (e_rightFlatMap_rv mf (as_taker obj_of f))
    | RJoin y => looks s y (fun o => do v <- e_join o; shown (inl v))
    | RJoinRv y => looks_rv s y (fun o => do '(v, o') <- e_join_rv mf o; do r <- shown (inl v); ret (r, o'))
    | RCases y f g => looks s y (fun o => do u <- e_cases (as_reader id f) (as_reader id g) o; shown u)
    | RCasesRv y f g => looks_rv s y (fun o => do '(u, o') <- e_cases_rv (as_taker id f) (as_taker id g) o; do r <- shown u; ret (r, o'))
    | RBool y => looks s y (fun o => ret (RBit (e_bool o)))
    | RLeftValue y => looks s y (fun o => do m <- e_left o; shown_maybe m)
    | RRightValue y => looks s y (fun o => do m <- e_right o; shown_maybe m)
    | REqual y z => let* b := rvar s z in looks s y (fun a => do q <- e_equal eqv eqv a b; ret (RBit q))
    | RUnequal y z => let* b := rvar s z in looks s y (fun a => do q <- e_unequal eqv eqv a b; ret (RBit q))
    end.
  Definition rexecs (s : rstate) (cs : list rcmd) : outcome (list rres * rstate) :=
    ofold cs ([], s) (fun c '(rs, s) => let* '(r, s) := rexec s c in Ret (rs ++ [r], s)).

  (** ** A chain of maps on temporaries, as the parameter checks are written (tsetlini_params.cpp:430-444, 489-500, 511-526, 577-589)
         and the factories (tsetlini.cpp:1180-1182): every Either but the last is a temporary, destroyed when the expression ends *)
  Inductive rstep (T : Type) := StepMap (f : effect_rv T T) | StepFlatMap (f : effect_rv T (V + T)).
  Definition run_step {T} (mfT : T -> T) (c : rstep T) (o : eobj V T) : act ((eobj V T + X) * eobj V T) :=
    match c with
    | StepMap _ f => e_rightMap_rv mf mfT (as_taker id f) o
    | StepFlatMap _ f => e_rightFlatMap_rv mf (as_taker obj_of f) o
    end.
  Fixpoint run_chain {T} (mfT : T -> T) (cs : list (rstep T)) (o : eobj V T) : act (eobj V T + X) :=
    match cs with
    | [] => ret (inl o)
    | c :: cs =>
        do '(r, o') <- run_step mfT c o;
        match r with
        | inr x => do _ <- e_destroy o'; ret (inr x)
        | inl n => do r <- run_chain mfT cs n; do _ <- e_destroy o'; ret r
        end
    end.
End Results.
Arguments rworld : clear implicits.
Arguments act : clear implicits.
Arguments reader : clear implicits.
Arguments taker : clear implicits.
Arguments SNothing {L R}. Arguments SLeft {L R} l. Arguments SRight {L R} r.
Arguments EObj {L R} e_store e_isLeft. Arguments e_store {L R} e. Arguments e_isLeft {L R} e.
Arguments MObj {T} m_store m_hasValue. Arguments m_store {T} m. Arguments m_hasValue {T} m.
Arguments OEither {L T} o. Arguments OMaybe {L T} o. Arguments OValue {L T} t.
Arguments effect : clear implicits.
Arguments effect_rv : clear implicits.
Arguments rcmd : clear implicits.
Arguments rres : clear implicits.
Arguments rstate : clear implicits.
Arguments rstep : clear implicits.
Arguments StepMap {W X V T} f.
Arguments StepFlatMap {W X V T} f.
