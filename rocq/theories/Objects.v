(** * Model of estimator objects: construction, clone_state, construction from a state, move, destruction.
      include/tsetlini.hpp:34-145 (and its three siblings), src/tsetlini.cpp:1055-1085, 1163-1176 (and siblings at 1193-1214, 1336-1347,
      1454-1467, 1490-1512, 1601-1614, 1637-1659), estimator_state.cpp:9-14, estimator_state_fwd.hpp:45-53.

    An estimator object consists of one std::unique_ptr m_state_p; clone_state returns another such pointer.  Both are modelled as a
    named variable which owns an address; a name without an address is a null pointer (moved from, or not created yet; that a name
    denotes either an estimator or a state pointer is checked by the compiler and not modelled).  The heap maps addresses to states.
    Proofs are elsewhere. *)
From Verif Require Export Base Params.
From stdpp Require Import gmap stringmap.
Local Open Scope Z_scope.

Section Objects.
  (** [St] states of estimators; [call] the member functions fit, predict, ...; [sop] functions on a state: to_json_string and
      from_json_string *)
  Context {St Op Res SOp SRes : Type}.
  Context (fresh_state : params -> St) (call : St -> Op -> outcome (Res * St)) (sop : St -> SOp -> outcome (SRes * St)).
  Context (read : St -> params).

  Inductive cmd :=
  | Create (x : string) (p : params)      (* x = ClassifierClassic(params) *)
  | CloneState (q x : string)             (* q = x.clone_state() *)
  | FromState (x q : string)              (* x = ClassifierClassic( *q) *)
  | Move (x y : string)                   (* x = std::move(y), also the move constructor *)
  | Call (x : string) (o : Op)            (* x.fit(...) and so on *)
  | ReadParams (x : string)               (* x.read_params() *)
  | OnState (q : string) (o : SOp)        (* to_json_string( *q), from_json_string( *q, text) *)
  | Destroy (x : string).                 (* x goes out of scope *)
  Inductive cres := RVoid | RCall (r : Res) | RParams (p : params) | RState (r : SRes).

  (** names to addresses, addresses to live states *)
  Record world := World { w_ptr : stringmap Z; w_heap : gmap Z St }.
  Definition world0 : world := World ∅ ∅.

  (** where operator new puts the next state *)
  Context (alloc : gmap Z St -> Z).

  (** *p of a unique_ptr: null pointers and freed states are undefined behaviour *)
  Definition deref (w : world) (x : string) : outcome (Z * St) :=
    match w_ptr w !! x with
    | None => UB EmptyDeref
    | Some a => match w_heap w !! a with None => UB EmptyDeref | Some s => Ret (a, s) end
    end.
  (** new EstimatorState(s) *)
  Definition new_state (w : world) (s : St) : Z * world :=
    let a := alloc (w_heap w) in (a, World (w_ptr w) (<[a := s]> (w_heap w))).
  (** estimator_state.cpp:9-14 EstimatorStateDeleter; deleting a freed state is undefined behaviour *)
  Definition delete (w : world) (a : Z) : outcome world :=
    match w_heap w !! a with None => UB EmptyDeref | Some _ => Ret (World (w_ptr w) (base.delete a (w_heap w))) end.
  (** unique_ptr::reset(a): the pointer is replaced first, then the old state is deleted *)
  Definition reset (w : world) (x : string) (a : option Z) : outcome world :=
    let old := w_ptr w !! x in
    let w := World (partial_alter (fun _ => a) x (w_ptr w)) (w_heap w) in
    match old with None => Ret w | Some b => delete w b end.
  (** unique_ptr::release *)
  Definition release (w : world) (y : string) : option Z * world :=
    (w_ptr w !! y, World (base.delete y (w_ptr w)) (w_heap w)).

  Definition exec (w : world) (c : cmd) : outcome (cres * world) :=
    match c with
    | Create x p => let '(a, w) := new_state w (fresh_state p) in let* w := reset w x (Some a) in Ret (RVoid, w)
    | CloneState q x =>
        let* '(_, s) := deref w x in let '(a, w) := new_state w s in let* w := reset w q (Some a) in Ret (RVoid, w)
    | FromState x q =>
        let* '(_, s) := deref w q in let '(a, w) := new_state w s in let* w := reset w x (Some a) in Ret (RVoid, w)
    | Move x y => let '(a, w) := release w y in let* w := reset w x a in Ret (RVoid, w)
    | Call x o =>
        let* '(a, s) := deref w x in let* '(r, s) := call s o in Ret (RCall r, World (w_ptr w) (<[a := s]> (w_heap w)))
    | ReadParams x => let* '(_, s) := deref w x in Ret (RParams (read s), w)
    | OnState q o =>
        let* '(a, s) := deref w q in let* '(r, s) := sop s o in Ret (RState r, World (w_ptr w) (<[a := s]> (w_heap w)))
    | Destroy x => let* w := reset w x None in Ret (RVoid, w)
    end.
  Definition execs (w : world) (cs : list cmd) : outcome (list cres * world) :=
    ofold cs ([], w) (fun c '(rs, w) => let* '(r, w) := exec w c in Ret (rs ++ [r], w)).
End Objects.
Arguments cmd : clear implicits.
Arguments cres : clear implicits.
Arguments world : clear implicits.
