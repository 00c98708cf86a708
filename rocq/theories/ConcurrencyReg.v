(** * Model of concurrent predict calls on one regressor: tsetlini.cpp:483-507 predict_regressor_impl, called by several threads on
      the same `const` estimator.  Proofs are elsewhere.

    As Concurrency.v for classifiers: predict writes the clause outputs into the `mutable` scratch vector cache.clause_output
    (estimator_state_cache.hpp:37-45) and reads them back in sum_up_regressor_votes.  A call is a sequence of steps, each of which
    makes at most one access to the shared vector, and a schedule says which thread makes the next step.

    Simplifications: memory is sequentially consistent ([reg_racing] below is the definition of a data race, for which C++ gives
    no meaning); the input checks and the parameter lookups, which read only immutable data, are made before the first step; the
    loop over clauses is executed by the calling thread in an order chosen by OpenMP.  Indices are nat: their int computations do
    not overflow on a fitted estimator. *)
From Verif Require Export Estimator.
Local Open Scope Z_scope.

(** where a call stands *)
Inductive rcall :=
| RInClauses (todo : list nat)            (* calculate_clause_output_with_pruning: clauses not evaluated yet *)
| RInVotes (j : nat) (acc : Z)            (* sum_up_regressor_votes: next clause, sum so far *)
| RReturned (response : Z).

Section Call.
  Context {R : rnd} (A : algo R).
  (** what a call reads from the estimator: automata, weights, threshold, tile size *)
  Context (s : tastate (a_pol A)) (T tile : Z).

  (** one step of predict(x); [out] is the shared vector cache.clause_output *)
  Definition rstep (x : a_smp A) (t : rcall) (out : list Z) : outcome (rcall * list Z) :=
    match t with
    | RInClauses (j :: todo) =>       (* clause_output[oidx] = ... *)
        let* v := a_clause_pruned A (tile_of tile) x s j in
        let* out := vset out j v in
        Ret (RInClauses todo, out)
    | RInClauses [] => Ret (RInVotes 0 0, out)
    | RInVotes j acc =>               (* tsetlini_algo_classic.hpp:735-752: accumulate_weighted or std::accumulate, clamp *)
        if (j <? length out)%nat then
          let* val := vget out j in
          let* acc :=
            (if Nat.eqb (length (ta_weights s)) 0 then ci64 (acc + val)
             else let* w := vget (ta_weights s) j in ci64 (acc + val * (1 + w))) in
          Ret (RInVotes (S j) acc, out)
        else Ret (RReturned (clampZ acc 0 T), out)
    | RReturned _ => Ret (t, out)
    end.

  (** threads, each with the sample it asks about, and the shared vector *)
  Definition rconfig : Type := list (a_smp A * rcall) * list Z.

  (** thread [k] makes a step *)
  Definition rkstep (k : nat) (c : rconfig) : outcome rconfig :=
    match c.1 !! k with
    | None => Ret c
    | Some (x, t) => let* '(t, m) := rstep x t c.2 in Ret (<[k := (x, t)]> c.1, m)
    end.
  Definition rrun_threads (schedule : list nat) (c : rconfig) : outcome rconfig := ofold schedule c rkstep.
End Call.

(** what thread [k] has returned, if it has *)
Definition reg_returned {smp} (c : list (smp * rcall) * list Z) (k : nat) : option Z :=
  match c.1 !! k with Some (_, RReturned l) => Some l | _ => None end.

(** the accesses of the next step: to which element of clause_output, and whether it writes *)
Definition reg_accesses (t : rcall) (out : list Z) : list (nat * bool) :=
  match t with
  | RInClauses (j :: _) => [(j, true)]
  | RInVotes j _ => if (j <? length out)%nat then [(j, false)] else []
  | _ => []
  end.
(** a data race: two threads are about to access the same element, one of them writing *)
Definition reg_racing {smp} (c : list (smp * rcall) * list Z) : Prop :=
  exists i k x y t u a w w', i <> k /\ c.1 !! i = Some (x, t) /\ c.1 !! k = Some (y, u) /\
    (a, w) ∈ reg_accesses t c.2 /\ (a, w') ∈ reg_accesses u c.2 /\ (w = true \/ w' = true).
(** a data race of a call that reads with one that writes *)
Definition reg_read_racing {smp} (c : list (smp * rcall) * list Z) : Prop :=
  exists i k x y t u a, i <> k /\ c.1 !! i = Some (x, t) /\ c.1 !! k = Some (y, u) /\ (a, false) ∈ reg_accesses t c.2 /\ (a, true) ∈ reg_accesses u c.2.

Section Estimator.
  Context {R : rnd} (S : sch) (A : algo R).
  Notation est := (est (a_pol A) (eS S) (eG R) (eF R)).

  (** several calls of predict on [e], one per thread, none of which has evaluated a clause yet: the sample and the order in
      which the calling thread evaluates clauses *)
  Definition reg_start_predicts (e : est) (calls : list (a_smp A * list nat)) : rconfig A :=
    (map (fun '(x, order) => (x, RInClauses order)) calls, ca_out (e_cache e)).

  (** the threads make steps as the schedule says; parameters as read in tsetlini.cpp:492-504 *)
  Definition reg_run_predicts (e : est) (schedule : list nat) (c : rconfig A) : outcome (rconfig A) :=
    let p := e_params e in
    let* tile := P_tile p in
    let* T := P_threshold p in
    rrun_threads A (e_ta e) T tile schedule c.
End Estimator.
