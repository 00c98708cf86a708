(** * C67, C68, C69: the result type of the API *)
From Verif Require Import Results ResultSpec ParamChain ResultProps.
From stdpp Require Import stringmap list.
Local Open Scope Z_scope.

(** C67: every program that makes, copies, moves, maps, joins, compares and destroys results computes what the same program computes
    with values of a sum type: same results, same calls of its functions in the same order on the same arguments (the rest of the
    program's state is the same), same exceptions, no undefined behaviour of its own; the member of every union agrees with its flag, and
    the objects alive are exactly the contents of the variables in scope. *)
Theorem C67_programs {W X V : Type} (eqv : V -> V -> bool) (mf : V -> V) (cs : list (rcmd W X V)) (q : W) :
  rexecs eqv mf (RState ∅ (RWorld 0 q)) cs = let* '(rs, s) := sexecs eqv mf (SState ∅ q) cs in Ret (rs, state_of s).
Proof. exact (results_are_sums eqv mf cs q). Qed.
Print Assumptions C67_programs.

Theorem C67_nothing_leaks {W X V : Type} (eqv : V -> V -> bool) (mf : V -> V) (cs : list (rcmd W X V)) (q : W) rs s :
  rexecs eqv mf (RState ∅ (RWorld 0 q)) cs = Ret (rs, s) ->
  live (r_world s) = Z.of_nat (size (r_vars s)) /\ (r_vars s = ∅ -> live (r_world s) = 0).
Proof. exact (no_content_leaks eqv mf cs q rs s). Qed.
Print Assumptions C67_nothing_leaks.

(** the optional values that left() and right() give, and the helpers Try and lift *)
Theorem C67_maybe {W X T U : Type} (eqv : T -> T -> bool) (mf : U -> U) (o o' : option T) (d : T) (f : effect W X T U)
    (g : reader W X T (mobj U)) (w : rworld W) :
  m_get (maybe_of o) d w = Ret (match o with Some t => t | None => d end, RWorld (live w + 1) (rest w)) /\
  m_copy (maybe_of o) w = Ret (maybe_of o, RWorld (live w + (if o then 1 else 0)) (rest w)) /\
  m_destroy (maybe_of o) w = Ret (tt, RWorld (live w - (if o then 1 else 0)) (rest w)) /\
  m_map mf (as_reader id f) (maybe_of o) w =
    match o with
    | None => Ret (inl (maybe_of None), w)
    | Some t => let* '(u, q) := f t (rest w) in
                Ret (match u with inl u => (inl (maybe_of (Some u)), RWorld (live w + 1) q) | inr x => (inr x, RWorld (live w) q) end)
    end /\
  m_flatMap g (maybe_of o) w = match o with None => Ret (inl (maybe_of None), w) | Some t => g t w end /\
  m_equal eqv (maybe_of o) (maybe_of o') w =
    Ret (match o, o' with Some x, Some y => eqv x y | None, None => true | _, _ => false end, w).
Proof. exact (maybe_spec eqv mf o o' d f g w). Qed.
Print Assumptions C67_maybe.

Theorem C67_try {W X T R E : Type} (mfE : E -> E) (mfR : R -> R) (catches : X -> option E) (f : effect W X T R) t (w : rworld W) :
  e_try mfE mfR catches (as_reader id f) t w =
  let* '(u, q) := f t (rest w) in
  Ret (match u with
       | inl r => (inl (obj_of (inr r)), RWorld (live w + 1) q)
       | inr x => match catches x with
                  | Some e => (inl (obj_of (inl e)), RWorld (live w + 1) q)
                  | None => (inr x, RWorld (live w) q)
                  end
       end).
Proof. exact (e_try_spec mfE mfR catches f t w). Qed.
Print Assumptions C67_try.

Theorem C67_lift {W X L T U : Type} (f : effect W X (list T) U) (args : list (argument L T)) (w : rworld W) :
  e_lift (as_reader id f) (map operand_of args) w =
  match mapM carried args with
  | None => Ret (inl (maybe_of None), w)
  | Some ts => let* '(u, q) := f ts (rest w) in
               Ret (match u with inl u => (inl (maybe_of (Some u)), RWorld (live w + 1) q) | inr x => (inr x, RWorld (live w) q) end)
  end.
Proof. exact (e_lift_spec f args w). Qed.
Print Assumptions C67_lift.

(** a program: the contents are integers, a move leaves 0, the functions append to a log of calls and the step 13 throws *)
Definition demo_map : effect (list Z) string Z Z := fun v q => Ret (if (v =? 13) then inr "unlucky"%string else inl (v + 1), q ++ [v]).
Definition demo_flat : effect_rv (list Z) string Z (Z + Z) := fun v q => Ret (inl (if (v <? 10) then inr (2 * v) else inl v), 0, q ++ [v]).
Definition demo : list (rcmd (list Z) string Z) :=
  [RRightOf "a" 4; RRightMap "b" "a" demo_map; RRightFlatMapRv "c" "b" demo_flat; RRightFlatMapRv "d" "c" demo_flat;
   RRightMap "e" "d" demo_map; RLeftValue "e"; RRightValue "b"; RBool "e"; RCopy "f" "a"; REqual "f" "a"; RRightOf "g" 13;
   RRightMap "h" "g" demo_map; REnd "b"; REnd "c"; RJoin "a"].
Example C67_demo :
  match rexecs Z.eqb (fun _ => 0) (RState ∅ (RWorld 0 [])) demo with
  | Ret (rs, s) =>
      rs = [RNone; RNone; RNone; RNone; RNone; RMaybe (Some 10); RMaybe (Some 0); RBit false; RNone; RBit true; RNone;
            RThrown "unlucky"%string; RNone; RNone; RValue 4] /\
      rest (r_world s) = [4; 5; 10; 13] /\ live (r_world s) = 5
  | _ => False
  end.
Proof. vm_compute. done. Qed.

(** C68: a chain of maps on temporaries - the way every parameter check is written - gives the first error, and calls no function behind
    it; all temporaries are destroyed; splitting the chain changes nothing. *)
Theorem C68_chain {W X V T : Type} (mf : V -> V) (mfT : T -> T) (cs cs' : list (rstep W X V T)) (v : V + T) (l : V) (w : rworld W) :
  run_chain mf mfT cs (obj_of v) w =
    (let* '(r, q) := schain cs v (rest w) in
     Ret (match r with inl v => (inl (obj_of v), RWorld (live w) q) | inr x => (inr x, RWorld (live w - 1) q) end)) /\
  run_chain mf mfT cs (obj_of (inl l)) w = Ret (inl (obj_of (inl l)), w) /\
  schain (cs ++ cs') v (rest w) =
    (let* '(r, q) := schain cs v (rest w) in match r with inl v => schain cs' v q | inr x => Ret (inr x, q) end).
Proof. exact (chains mf mfT cs cs' v l w). Qed.
Print Assumptions C68_chain.

(** the chains of the two factories are the pipelines of the other theorems (Params.v), whatever the functions leave of their argument *)
Theorem C68_parameter_checks {W : Type} (hw rd : Z) (residue mp : params -> params) (ms : status -> status) (p : params) (w : rworld W) :
  run_chain ms mp (classifier_checks hw rd residue) (obj_of (inr p)) w =
    match classifier_pipeline hw rd (Right p) with
    | Ret (Right p') => Ret (inl (obj_of (inr p')), w)
    | Ret (Left s) => Ret (inl (obj_of (inl s)), w)
    | Throw x => Ret (inr x, RWorld (live w - 1) (rest w))
    | UB k => UB k
    | OutOfFuel => OutOfFuel
    end /\
  run_chain ms mp (regressor_checks hw rd residue) (obj_of (inr p)) w =
    match regressor_pipeline hw rd (Right p) with
    | Ret (Right p') => Ret (inl (obj_of (inr p')), w)
    | Ret (Left s) => Ret (inl (obj_of (inl s)), w)
    | Throw x => Ret (inr x, RWorld (live w - 1) (rest w))
    | UB k => UB k
    | OutOfFuel => OutOfFuel
    end.
Proof. exact (parameter_chains hw rd residue mp ms p w). Qed.
Print Assumptions C68_parameter_checks.

Example C68_demo :
  let step (b : bool) : rstep (list Z) string Z Z := if b then StepMap (fun t q => Ret (inl (t + 1), 0, q ++ [t]))
                                                   else StepFlatMap (fun t q => Ret (inl (if (t <? 10) then inr (2 * t) else inl t), 0, q ++ [t])) in
  run_chain (fun _ => 0) (fun _ => 0) (map step [true; false; false; true]) (obj_of (inr 4)) (RWorld 1 []) =
    Ret (inl (obj_of (inl 10)), RWorld 1 [4; 5; 10]).
Proof. vm_compute. done. Qed.
Example C68_demo_checks :
  (exists p, run_chain (W := unit) id id (classifier_checks 4 7 id) (obj_of (inr default_classifier_params)) (RWorld 1 tt)
     = Ret (inl (obj_of (inr p)), RWorld 1 tt)) /\
  run_chain (W := unit) id id (classifier_checks 4 7 id) (obj_of (inr (<["threshold" := PInt 0]> default_classifier_params))) (RWorld 1 tt)
     = Ret (inl (obj_of (inl S_BAD_JSON)), RWorld 1 tt).
Proof. split; [eexists|]; vm_compute; reflexivity. Qed.

(** C69 (defect): "mapping a named result leaves it as it was" is false for results whose contents cannot be copied, such as the results
    of the estimator factories: the side the map does not touch is moved out of the variable. *)
Theorem C69_mapping_consumes_refuted {W X V : Type} (eqv : V -> V -> bool) (mf : V -> V) (v : V) (f : effect_rv W X V V) (q : W) :
  mf v <> v ->
  (exists s, rexecs eqv mf (RState ∅ (RWorld 0 q)) [RLeftOf "y" v; RLeftValue "y"; RRightMapRv "x" "y" f; RLeftValue "y"]
     = Ret ([RNone; RMaybe (Some v); RNone; RMaybe (Some (mf v))], s)) /\
  (exists s, rexecs eqv mf (RState ∅ (RWorld 0 q)) [RRightOf "y" v; RRightValue "y"; RLeftMapRv "x" "y" f; RRightValue "y"]
     = Ret ([RNone; RMaybe (Some v); RNone; RMaybe (Some (mf v))], s)) /\
  ~ (forall rs s, rexecs (X := X) eqv mf (RState ∅ (RWorld 0 q)) [RRightOf "y" v; RLeftMapRv "x" "y" f; RRightValue "y"] = Ret (rs, s) ->
       rs = [RNone; RNone; RMaybe (Some v)]).
Proof. exact (mapping_consumes eqv mf v f q). Qed.
Print Assumptions C69_mapping_consumes_refuted.
(** with the same commands on contents that can be copied, the variable keeps its value *)
Theorem C69_copyable_kept {W X V : Type} (eqv : V -> V -> bool) (mf : V -> V) (v : V) (f : effect W X V V) (q : W) :
  exists s, rexecs eqv mf (RState ∅ (RWorld 0 q)) [RRightOf "y" v; RLeftMap "x" "y" f; RRightValue "y"]
     = Ret ([RNone; RNone; RMaybe (Some v)], s).
Proof. exact (copyable_kept eqv mf v f q). Qed.
Print Assumptions C69_copyable_kept.
Example C69_demo : (fun _ : Z => 0) 5 <> 5. Proof. done. Qed.
