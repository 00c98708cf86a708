(** * Model of concurrent predict calls on one classifier: tsetlini.cpp:446-480 predict_classifier_impl, called by several
      threads on the same `const` estimator.  Proofs are elsewhere.

    predict is a const member, but it writes its intermediate results into the scratch vectors of the estimator
    (estimator_state_cache.hpp:37-45, `mutable` in estimator_state.hpp), which are shared by all callers.
    Here a call is a sequence of steps, each of which makes one access to the shared vectors (one comparison, that is two reads,
    in max_element), and a schedule says which thread makes the next step.

    Simplifications: memory is sequentially consistent (C++ gives no meaning at all to a program with a data race; [racing]
    below is the definition of such a race); the input checks and the parameter lookups, which read only immutable data, are
    made before the first step; loops over clauses are executed by the calling thread in an order chosen by OpenMP. Indices are
    nat: their int computations do not overflow on a fitted estimator. *)
From Verif Require Export Estimator.
Local Open Scope Z_scope.

(** the shared vectors: cache.clause_output, cache.label_sum *)
Record shared := Shared { sh_out : list Z; sh_sum : list Z }.

(** where a call stands *)
Inductive pcall :=
| InClauses (todo : list nat)                     (* calculate_clause_output_with_pruning: clauses not evaluated yet *)
| InVotes (l : nat) (todo : list nat) (acc : Z)   (* sum_up_label_votes of label l: clauses not added yet, sum so far *)
| InMax (best i : nat)                            (* std::max_element: best so far, next index *)
| Returned (label : Z).

Section Call.
  Context {R : rnd} (A : algo R).
  (** what a call reads from the estimator: automata, weights, number of labels, clause outputs per label, threshold, tile size *)
  Context (s : tastate (a_pol A)) (L opl : nat) (T tile : Z).

  (** tsetlini_algo_classic.hpp:119-133: next label, or std::max_element, tsetlini.cpp:474-476 *)
  Definition enter_label (l : nat) : pcall :=
    if (l <? L)%nat then InVotes l (seq (l * opl) opl) 0 else InMax 0 1.

  (** one step of predict(x) *)
  Definition pstep (x : a_smp A) (t : pcall) (m : shared) : outcome (pcall * shared) :=
    match t with
    | InClauses (j :: todo) =>       (* clause_output[oidx] = ... *)
        let* v := a_clause_pruned A (tile_of tile) x s j in
        let* out := vset (sh_out m) j v in
        Ret (InClauses todo, Shared out (sh_sum m))
    | InClauses [] => Ret (enter_label 0, m)
    | InVotes l (j :: todo) acc =>   (* tsetlini_algo_classic.hpp:70-95 *)
        let* val := vget (sh_out m) j in
        let* acc :=
          (if negb (Nat.eqb (length (ta_weights s)) 0) then
             let* w := vget (ta_weights s) j in
             ci64 (acc + (if Nat.even j then val * (1 + w) else - val * (1 + w)))
           else ci64 (acc + (if Nat.even j then val else - val))) in
        Ret (InVotes l todo acc, m)
    | InVotes l [] acc =>            (* label_sum[target_label] = std::clamp(...) *)
        let* sum := vset (sh_sum m) l (clampZ acc (- T) T) in
        Ret (enter_label (S l), Shared (sh_out m) sum)
    | InMax best i =>
        if (i <? length (sh_sum m))%nat then
          let* b := vget (sh_sum m) best in
          let* v := vget (sh_sum m) i in
          Ret (InMax (if b <? v then i else best) (S i), m)
        else Ret (Returned (Z.of_nat best), m)
    | Returned _ => Ret (t, m)
    end.

  (** threads, each with the sample it asks about, and the shared vectors *)
  Definition pconfig : Type := list (a_smp A * pcall) * shared.

  (** thread [k] makes a step *)
  Definition kstep (k : nat) (c : pconfig) : outcome pconfig :=
    match c.1 !! k with
    | None => Ret c
    | Some (x, t) => let* '(t, m) := pstep x t c.2 in Ret (<[k := (x, t)]> c.1, m)
    end.
  Definition run_threads (schedule : list nat) (c : pconfig) : outcome pconfig := ofold schedule c kstep.
End Call.

(** what thread [k] has returned, if it has *)
Definition returned {smp} (c : list (smp * pcall) * shared) (k : nat) : option Z :=
  match c.1 !! k with Some (_, Returned l) => Some l | _ => None end.

(** the accesses of the next step: to which cell, and whether it writes *)
Inductive cell := Out (j : nat) | Sum (l : nat).
Definition accesses (t : pcall) (m : shared) : list (cell * bool) :=
  match t with
  | InClauses (j :: _) => [(Out j, true)]
  | InVotes l (j :: _) _ => [(Out j, false)]
  | InVotes l [] _ => [(Sum l, true)]
  | InMax best i => if (i <? length (sh_sum m))%nat then [(Sum best, false); (Sum i, false)] else []
  | _ => []
  end.
(** a data race: two threads are about to access the same cell, one of them writing *)
Definition racing {smp} (c : list (smp * pcall) * shared) : Prop :=
  exists i k x y t u a w w', i <> k /\ c.1 !! i = Some (x, t) /\ c.1 !! k = Some (y, u) /\
    (a, w) ∈ accesses t c.2 /\ (a, w') ∈ accesses u c.2 /\ (w = true \/ w' = true).
(** a data race of a call that reads with one that writes *)
Definition read_racing {smp} (c : list (smp * pcall) * shared) : Prop :=
  exists i k x y t u a, i <> k /\ c.1 !! i = Some (x, t) /\ c.1 !! k = Some (y, u) /\ (a, false) ∈ accesses t c.2 /\ (a, true) ∈ accesses u c.2.

Section Estimator.
  Context {R : rnd} (S : sch) (A : algo R).
  Notation est := (est (a_pol A) (eS S) (eG R) (eF R)).

  (** several calls of predict on [e], one per thread, none of which has evaluated a clause yet: the sample and the order in
      which the calling thread evaluates clauses *)
  Definition start_predicts (e : est) (calls : list (a_smp A * list nat)) : pconfig A :=
    (map (fun '(x, order) => (x, InClauses order)) calls, Shared (ca_out (e_cache e)) (ca_sum (e_cache e))).

  (** the threads make steps as the schedule says; parameters as read in tsetlini.cpp:455-472 *)
  Definition run_predicts (e : est) (schedule : list nat) (c : pconfig A) : outcome (pconfig A) :=
    let p := e_params e in
    let* tile := P_tile p in
    let* L := P_number_of_labels p in
    let* opl := P_outputs_per_label p in
    let* T := P_threshold p in
    run_threads A (e_ta e) (Z.to_nat L) (Z.to_nat opl) T tile schedule c.
End Estimator.
