(** * Model of the OpenMP parallel loops over clauses, one memory access at a time: tsetlini_algo_classic.hpp:138-361,
      tsetlini_algo_bitwise.hpp:35-307.  Proofs are elsewhere.

    In Algo.v an iteration of `#pragma omp parallel for` is one indivisible step.  Here an iteration is a program whose steps are
    single reads and writes of shared memory; a team of threads takes the iterations from a pool, any thread any iteration at any
    time (which covers static, dynamic and guided scheduling), and the accesses of the threads interleave arbitrarily.  The region
    ends when all iterations are done (implied barrier).

    Simplifications: memory is sequentially consistent (as long as there is no data race this is what C++ promises, and the
    absence of races is one of the theorems); loop variables, flags and the pointers returned by row_data are thread-local, their
    computation is not a step; the sample is read by every iteration of the inner loop of the short classic loops even where && cuts the condition short
    (so that the model reads at least the cells the program reads). *)
From Verif Require Export Estimator.
Local Open Scope Z_scope.

(** ** Programs *)
(** a memory: cells, values, reading and writing *)
Record machine := Machine {
  cell : Type; val : Type; memory : Type;
  peek : memory -> cell -> outcome val;
  poke : memory -> cell -> val -> outcome memory }.

(** what a thread still has to do: stop with an outcome, or make an access and go on *)
Inductive prog (M : machine) (T : Type) :=
| Lift (o : outcome T)
| Read (c : cell M) (k : val M -> prog M T)
| Write (c : cell M) (v : val M) (p : prog M T).
Arguments Lift {M T} o. Arguments Read {M T} c k. Arguments Write {M T} c v p.

Fixpoint pbind {M T U} (p : prog M T) (f : T -> prog M U) : prog M U :=
  match p with
  | Lift o => match o with Ret t => f t | Throw e => Lift (Throw e) | UB k => Lift (UB k) | OutOfFuel => Lift OutOfFuel end
  | Read c k => Read c (fun v => pbind (k v) f)
  | Write c v p => Write c v (pbind p f)
  end.
Notation "'let!' x := e1 'in' e2" := (pbind e1 (fun x => e2))
  (at level 200, x name, e1 at level 100, e2 at level 200, right associativity).
Notation "'let!' ' p := e1 'in' e2" := (pbind e1 (fun p => e2))
  (at level 200, p strict pattern, e1 at level 100, e2 at level 200, right associativity).
Definition pret {M T} (t : T) : prog M T := Lift (Ret t).
Definition pread {M} (c : cell M) : prog M (val M) := Read c pret.
Definition pwrite {M} (c : cell M) (v : val M) : prog M unit := Write c v (pret tt).
(** [for (i = b; i < b + n; ++i)] *)
Fixpoint pfor {M St} (b n : nat) (s : St) (body : nat -> St -> prog M St) : prog M St :=
  match n with
  | O => pret s
  | S n => let! s := body b s in pfor (S b) n s body
  end.

(** a program that runs alone *)
Fixpoint exec {M T} (p : prog M T) (m : memory M) : outcome (T * memory M) :=
  match p with
  | Lift o => let* t := o in Ret (t, m)
  | Read c k => let* v := peek M m c in exec (k v) m
  | Write c v p => let* m := poke M m c v in exec p m
  end.

(** ** Parallel regions *)
Section Region.
  Context {M : machine}.
  (** body of the parallel loop *)
  Context (body : nat -> prog M unit).

  (** iterations nobody has taken yet, what each thread of the team is executing (None: nothing), memory *)
  Record region := Region { r_pool : list nat; r_threads : list (option (prog M unit)); r_mem : memory M }.

  (** a team of [k] threads starts on the iterations [its] *)
  Definition start (its : list nat) (k : nat) (m : memory M) : region := Region its (replicate k None) m.

  Inductive step : region -> region -> Prop :=
  | TakeIteration p1 j p2 ts m k : ts !! k = Some None ->
      step (Region (p1 ++ j :: p2) ts m) (Region (p1 ++ p2) (<[k := Some (body j)]> ts) m)
  | ReadCell pool ts m k c f v : ts !! k = Some (Some (Read c f)) -> peek M m c = Ret v ->
      step (Region pool ts m) (Region pool (<[k := Some (f v)]> ts) m)
  | WriteCell pool ts m m' k c v p : ts !! k = Some (Some (Write c v p)) -> poke M m c v = Ret m' ->
      step (Region pool ts m) (Region pool (<[k := Some p]> ts) m')
  | EndIteration pool ts m k : ts !! k = Some (Some (Lift (Ret tt))) ->
      step (Region pool ts m) (Region pool (<[k := None]> ts) m).

  (** [n] steps, steps *)
  Inductive steps : nat -> region -> region -> Prop :=
  | NoStep r : steps 0 r r
  | MoreSteps n r1 r2 r3 : steps n r1 r2 -> step r2 r3 -> steps (S n) r1 r3.
  Definition reaches (r1 r2 : region) : Prop := exists n, steps n r1 r2.

  (** all iterations done *)
  Definition finished (r : region) : Prop := r_pool r = [] /\ Forall (fun t => t = None) (r_threads r).
  (** the next access of thread [k], and whether it writes *)
  Definition next_access (r : region) (k : nat) (c : cell M) (writes : bool) : Prop :=
    match r_threads r !! k with
    | Some (Some (Read c' _)) => c' = c /\ writes = false
    | Some (Some (Write c' _ _)) => c' = c /\ writes = true
    | _ => False
    end.
  (** data race: two threads about to access the same cell, one of them writing *)
  Definition races (r : region) : Prop :=
    exists k1 k2 c w1 w2, k1 <> k2 /\ next_access r k1 c w1 /\ next_access r k2 c w2 /\ w1 || w2 = true.
  (** a thread is about to do something undefined (or throw, or its loop counter has run out of fuel) *)
  Definition goes_wrong (r : region) : Prop :=
    exists k p, r_threads r !! k = Some (Some p) /\
      match p with
      | Lift o => forall t, o <> Ret t
      | Read c _ => forall v, peek M (r_mem r) c <> Ret v
      | Write c v _ => forall m, poke M (r_mem r) c v <> Ret m
      end.
End Region.
Arguments region M : clear implicits.

(** ** Classic loops: cells are features X_p[f], automata ta_state.row_data(r)[f] and clause_output[j] *)
Inductive ccell := CFeature (f : nat) | CAutomaton (r f : nat) | COutput (j : nat).
Record cmem := CMem { cm_x : list Z; cm_ta : nmatrix; cm_out : list Z }.
Definition classic_machine : machine := {|
  cell := ccell; val := Z; memory := cmem;
  peek m c := match c with
              | CFeature f => vget (cm_x m) f
              | CAutomaton r f => nm_get (cm_ta m) r f
              | COutput j => vget (cm_out m) j
              end;
  poke m c v := match c with
                | CFeature f => let* x := vset (cm_x m) f v in Ret (CMem x (cm_ta m) (cm_out m))
                | CAutomaton r f => let* ta := nm_set (cm_ta m) r f v in Ret (CMem (cm_x m) ta (cm_out m))
                | COutput j => let* out := vset (cm_out m) j v in Ret (CMem (cm_x m) (cm_ta m) out)
                end |}.

Section ClassicBody.
  (** BATCH_SZ, number_of_features *)
  Context (B nf : nat).
  Notation cprog := (prog classic_machine).
  Definition cfeature (f : nat) : cprog Z := pread (M := classic_machine) (CFeature f).
  Definition cautomaton (r f : nat) : cprog Z := pread (M := classic_machine) (CAutomaton r f).
  Definition coutput (j : nat) (v : Z) : cprog unit := pwrite (M := classic_machine) (COutput j) v.

  (** 164-165, 198-199, 284-285, 314-315 *)
  Definition pcl_actions (oidx fidx : nat) : cprog (bool * bool) :=
    let! p := cautomaton (2 * oidx + 0) fidx in
    let! n := cautomaton (2 * oidx + 1) fidx in
    pret (action p, action n).

  (** 282-289 *)
  Fixpoint pcl_short (oidx n fidx : nat) (output : bool) : cprog bool :=
    match n with
    | O => pret output
    | S n =>
        if output then
          let! '(inc, incn) := pcl_actions oidx fidx in
          let! x := cfeature fidx in
          let output := if (inc && (x =? 0)) || (incn && negb (x =? 0)) then false else output in
          pcl_short oidx n (S fidx) output
        else pret output
    end.
  (** 307-323 *)
  Fixpoint pcl_tiles (fuel : nat) (oidx kk : nat) (toggle : Z) : cprog (nat * Z) :=
    match fuel with
    | O => Lift OutOfFuel
    | S fuel =>
        if decide (kk < nf - (B - 1))%nat then
          let! toggle := pfor kk B toggle (fun fidx toggle =>
            let! '(inc, incn) := pcl_actions oidx fidx in
            let! x := cfeature fidx in
            let flag := cl_flag x inc incn in
            pret (if toggle <? flag then flag else toggle)) in
          if negb (toggle =? 0) then pret (kk, toggle)
          else pcl_tiles fuel oidx (kk + B) toggle
        else pret (kk, toggle)
    end.
  (** 324-331 *)
  Fixpoint pcl_tail (oidx n fidx : nat) (toggle : Z) : cprog Z :=
    match n with
    | O => pret toggle
    | S n =>
        if toggle =? 0 then
          let! '(inc, incn) := pcl_actions oidx fidx in
          let! x := cfeature fidx in
          let flag := cl_flag x inc incn in
          pcl_tail oidx n (S fidx) (if toggle <? flag then flag else toggle)
        else pret toggle
    end.
  (** one iteration of the loop of calculate_clause_output_T, 278-293 and 300-333 *)
  Definition pcl_body (oidx : nat) : cprog unit :=
    let! v :=
      (if decide (nf < B)%nat then
         let! output := pcl_short oidx nf 0 true in pret (b2z output)
       else
         let! '(kk, toggle) := pcl_tiles (S nf) oidx 0 0 in
         let! toggle := pcl_tail oidx (nf - kk) kk toggle in
         pret (b2z (toggle =? 0))) in
    coutput oidx v.

  (** 166-174 *)
  Fixpoint pclp_short (oidx n fidx : nat) (output all_exclude : bool) : cprog (bool * bool) :=
    match n with
    | O => pret (output, all_exclude)
    | S n =>
        if output then
          let! '(inc, incn) := pcl_actions oidx fidx in
          let! x := cfeature fidx in
          let all_exclude := if inc || incn then false else all_exclude in
          let output := if (inc && (x =? 0)) || (incn && negb (x =? 0)) then false else output in
          pclp_short oidx n (S fidx) output all_exclude
        else pret (output, all_exclude)
    end.
  (** 193-212 *)
  Fixpoint pclp_tiles (fuel : nat) (oidx kk : nat) (toggle nae : Z) : cprog (nat * Z * Z) :=
    match fuel with
    | O => Lift OutOfFuel
    | S fuel =>
        if decide (kk < nf - (B - 1))%nat then
          let! '(toggle, nae) := pfor kk B (toggle, nae) (fun fidx '(toggle, nae) =>
            let! '(inc, incn) := pcl_actions oidx fidx in
            let! x := cfeature fidx in
            let flag := cl_flag x inc incn in
            let xflag := b2z inc + b2z incn in
            pret (if toggle <? flag then flag else toggle, if nae <? xflag then xflag else nae)) in
          if negb (toggle =? 0) then pret (kk, toggle, nae)
          else pclp_tiles fuel oidx (kk + B) toggle nae
        else pret (kk, toggle, nae)
    end.
  (** 213-223 *)
  Fixpoint pclp_tail (oidx n fidx : nat) (toggle nae : Z) : cprog (Z * Z) :=
    match n with
    | O => pret (toggle, nae)
    | S n =>
        if toggle =? 0 then
          let! '(inc, incn) := pcl_actions oidx fidx in
          let! x := cfeature fidx in
          let flag := cl_flag x inc incn in
          let xflag := b2z inc + b2z incn in
          pclp_tail oidx n (S fidx) (if toggle <? flag then flag else toggle) (if nae <? xflag then xflag else nae)
        else pret (toggle, nae)
    end.
  (** one iteration of the loop of calculate_clause_output_with_pruning_T, 160-179 and 188-226 *)
  Definition pclp_body (oidx : nat) : cprog unit :=
    let! v :=
      (if decide (nf < B)%nat then
         let! '(output, all_exclude) := pclp_short oidx nf 0 true true in
         pret (b2z (if all_exclude then false else output))
       else
         let! '(kk, toggle, nae) := pclp_tiles (S nf) oidx 0 0 0 in
         let! '(toggle, nae) := pclp_tail oidx (nf - kk) kk toggle nae in
         pret (if nae =? 0 then 0 else b2z (toggle =? 0))) in
    coutput oidx v.
End ClassicBody.

(** ** Bitwise loops: cells are feature blocks, polarity blocks and clause_output[j] (a char; here an N) *)
Inductive bcell := BFeature (k : nat) | BPolarity (r k : nat) | BOutput (j : nat).
Record bmem := BMem { bm_x : bit_vector; bm_pol : bmatrix; bm_out : list Z }.
Definition bitwise_machine : machine := {|
  cell := bcell; val := N; memory := bmem;
  peek m c := match c with
              | BFeature k => vget (bv_blocks (bm_x m)) k
              | BPolarity r k => bm_block (bm_pol m) r k
              | BOutput j => let* v := vget (bm_out m) j in Ret (Z.to_N v)
              end;
  poke m c v := match c with
                | BFeature k => let* bl := vset (bv_blocks (bm_x m)) k v in Ret (BMem (BV (bv_len (bm_x m)) bl) (bm_pol m) (bm_out m))
                | BPolarity r k => let* p := bm_set_block (bm_pol m) r k v in Ret (BMem (bm_x m) p (bm_out m))
                | BOutput j => let* out := vset (bm_out m) j (Z.of_N v) in Ret (BMem (bm_x m) (bm_pol m) out)
                end |}.
(** the overload 120-205 writes into a bit_vector, block by block *)
Record pmem := PMem { pm_x : bit_vector; pm_pol : bmatrix; pm_out : bit_vector }.
Definition packed_machine : machine := {|
  cell := bcell; val := N; memory := pmem;
  peek m c := match c with
              | BFeature k => vget (bv_blocks (pm_x m)) k
              | BPolarity r k => bm_block (pm_pol m) r k
              | BOutput k => vget (bv_blocks (pm_out m)) k
              end;
  poke m c v := match c with
                | BFeature k => let* bl := vset (bv_blocks (pm_x m)) k v in Ret (PMem (BV (bv_len (pm_x m)) bl) (pm_pol m) (pm_out m))
                | BPolarity r k => let* p := bm_set_block (pm_pol m) r k v in Ret (PMem (pm_x m) p (pm_out m))
                | BOutput k => let* bl := vset (bv_blocks (pm_out m)) k v in Ret (PMem (pm_x m) (pm_pol m) (BV (bv_len (pm_out m)) bl))
                end |}.

Section BitwiseBody.
  (** both machines read features and polarities in the same way *)
  Context (M : machine) (feature : nat -> prog M N) (polarity : nat -> nat -> prog M N).
  (** BATCH_SZ, feature_blocks *)
  Context (B nblx : nat).
  Notation bprog := (prog M).
  Local Open Scope N_scope.

  Definition pbw_eval (oidx fidx : nat) : bprog (N * N * N) :=
    let! inc := polarity (2 * oidx + 0)%nat fidx in
    let! incn := polarity (2 * oidx + 1)%nat fidx in
    let! x := feature fidx in
    pret (N.lor (N.land inc (bnot 64 x)) (N.land incn x), inc, incn).
  (** 60-68 *)
  Fixpoint pbw_short (oidx n fidx : nat) (output : bool) : bprog bool :=
    match n with
    | O => pret output
    | S n => if output then
               let! '(ev, _, _) := pbw_eval oidx fidx in pbw_short oidx n (S fidx) (ev =? 0)
             else pret output
    end.
  (** 86-103 *)
  Fixpoint pbw_tiles (fuel : nat) (oidx kk : nat) (toggle : N) : bprog (nat * N) :=
    match fuel with
    | O => Lift OutOfFuel
    | S fuel =>
        if decide (kk < nblx - (B - 1))%nat then
          let! toggle := pfor kk B toggle (fun fidx toggle =>
            let! '(ev, _, _) := pbw_eval oidx fidx in
            pret (if toggle <? ev then ev else toggle)) in
          if negb (toggle =? 0) then pret (kk, toggle)
          else pbw_tiles fuel oidx (kk + B) toggle
        else pret (kk, toggle)
    end.
  (** 104-113 *)
  Fixpoint pbw_tail (oidx n fidx : nat) (toggle : N) : bprog N :=
    match n with
    | O => pret toggle
    | S n => if toggle =? 0 then
               let! '(ev, _, _) := pbw_eval oidx fidx in
               pbw_tail oidx n (S fidx) (if toggle <? ev then ev else toggle)
             else pret toggle
    end.
  (** 56-69 and 81-113: the output of a clause *)
  Definition pbw_clause (oidx : nat) : bprog bool :=
    if decide (nblx < B)%nat then pbw_short oidx nblx 0 true
    else
      let! '(kk, toggle) := pbw_tiles (S nblx) oidx 0 0 in
      let! toggle := pbw_tail oidx (nblx - kk) kk toggle in
      pret (toggle =? 0).
  (** 242-251 *)
  Fixpoint pbwp_short (oidx n fidx : nat) (output : bool) (anyi : N) : bprog (bool * N) :=
    match n with
    | O => pret (output, anyi)
    | S n => if output then
               let! '(ev, inc, incn) := pbw_eval oidx fidx in
               let u := N.lor inc incn in
               pbwp_short oidx n (S fidx) (ev =? 0) (if anyi <? u then u else anyi)
             else pret (output, anyi)
    end.
  (** 271-289 *)
  Fixpoint pbwp_tiles (fuel : nat) (oidx kk : nat) (toggle anyi : N) : bprog (nat * N * N) :=
    match fuel with
    | O => Lift OutOfFuel
    | S fuel =>
        if decide (kk < nblx - (B - 1))%nat then
          let! '(toggle, anyi) := pfor kk B (toggle, anyi) (fun fidx '(toggle, anyi) =>
            let! '(ev, inc, incn) := pbw_eval oidx fidx in
            let u := N.lor inc incn in
            pret (if toggle <? ev then ev else toggle, if anyi <? u then u else anyi)) in
          if negb (toggle =? 0) then pret (kk, toggle, anyi)
          else pbwp_tiles fuel oidx (kk + B) toggle anyi
        else pret (kk, toggle, anyi)
    end.
  (** 290-300 *)
  Fixpoint pbwp_tail (oidx n fidx : nat) (toggle anyi : N) : bprog (N * N) :=
    match n with
    | O => pret (toggle, anyi)
    | S n => if toggle =? 0 then
               let! '(ev, inc, incn) := pbw_eval oidx fidx in
               let u := N.lor inc incn in
               pbwp_tail oidx n (S fidx) (if toggle <? ev then ev else toggle) (if anyi <? u then u else anyi)
             else pret (toggle, anyi)
    end.
  (** 234-253 and 264-303: the output of a clause, with pruning *)
  Definition pbwp_clause (oidx : nat) : bprog bool :=
    if decide (nblx < B)%nat then
      let! '(output, anyi) := pbwp_short oidx nblx 0 true 0 in
      pret (if 0 <? anyi then output else false)
    else
      let! '(kk, toggle, anyi) := pbwp_tiles (S nblx) oidx 0 0 0 in
      let! '(toggle, anyi) := pbwp_tail oidx (nblx - kk) kk toggle anyi in
      let toggle := if 0 <? anyi then toggle else 1 in
      pret (toggle =? 0).
End BitwiseBody.

(** iterations of the loops of calculate_clause_output_T 35-118 and calculate_clause_output_with_pruning_T 210-307 *)
Definition bfeature (k : nat) : prog bitwise_machine N := pread (M := bitwise_machine) (BFeature k).
Definition bpolarity (r k : nat) : prog bitwise_machine N := pread (M := bitwise_machine) (BPolarity r k).
Definition boutput (j : nat) (v : bool) : prog bitwise_machine unit :=
  pwrite (M := bitwise_machine) (BOutput j) (if v then 1 else 0)%N.
Definition pbw_body (B nblx oidx : nat) : prog bitwise_machine unit :=
  let! v := pbw_clause bitwise_machine bfeature bpolarity B nblx oidx in boutput oidx v.
Definition pbwp_body (B nblx oidx : nat) : prog bitwise_machine unit :=
  let! v := pbwp_clause bitwise_machine bfeature bpolarity B nblx oidx in boutput oidx v.

(** iteration of the loop of the overload with packed clause outputs, 120-205:
    clause_output.assign(oidx, v), basic_bit_vector.hpp:94-123, reads and writes the block of bit oidx *)
Definition kfeature (k : nat) : prog packed_machine N := pread (M := packed_machine) (BFeature k).
Definition kpolarity (r k : nat) : prog packed_machine N := pread (M := packed_machine) (BPolarity r k).
Definition kassign (pos : nat) (v : bool) : prog packed_machine unit :=
  let! b := pread (M := packed_machine) (BOutput (pos / 64)) in
  pwrite (M := packed_machine) (BOutput (pos / 64)) (if v then N.lor b (set_mask 64 pos) else N.land b (clear_mask 64 pos)).
Definition packed_body (B nblx oidx : nat) : prog packed_machine unit :=
  let! v := pbw_clause packed_machine kfeature kpolarity B nblx oidx in kassign oidx v.

(** ** The loops of both algorithms behind one interface *)
Record par_algo {R} (A : algo R) := ParAlgo {
  pa_machine : machine;
  (** sample, automata and clause outputs in memory *)
  pa_mem : a_smp A -> tastate (a_pol A) -> list Z -> memory pa_machine;
  (** iteration of the loop of calculate_clause_output_T: tile, sample (its size) *)
  pa_body : nat -> a_smp A -> nat -> prog pa_machine unit;
  (** iteration of the loop of calculate_clause_output_with_pruning_T *)
  pa_pruned : nat -> a_smp A -> nat -> prog pa_machine unit;
}.
Arguments pa_machine {R A}. Arguments pa_mem {R A}. Arguments pa_body {R A}. Arguments pa_pruned {R A}.
Definition classic_par (R : rnd) : par_algo (classic R) :=
  ParAlgo R (classic R) classic_machine
    (fun (x : list Z) s out => CMem x (ta_matrix s) out)
    (fun B (x : list Z) => pcl_body B (length x))
    (fun B (x : list Z) => pclp_body B (length x)).
Definition bitwise_par (R : rnd) : par_algo (Algo.bitwise R) :=
  ParAlgo R (Algo.bitwise R) bitwise_machine
    (fun (x : bit_vector) (s : tastate bmatrix) out => BMem x (ta_pol s) out)
    (fun B (x : bit_vector) => pbw_body B (bv_content_blocks 64 x))
    (fun B (x : bit_vector) => pbwp_body B (bv_content_blocks 64 x)).
