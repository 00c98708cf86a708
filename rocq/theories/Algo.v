(** * Model of the learning algorithm: lib/src/tsetlini_algo_classic.hpp, lib/src/tsetlini_algo_bitwise.hpp,
      lib/src/tsetlini_algo_common.hpp. Proofs are elsewhere.

    Conventions:
    - clause_output, feedback and coin toss vectors are `char` vectors: lists of Z;
    - clause / feature indices are nat. The int expressions 2 * oidx + 1 cannot overflow for an existing matrix
      (rows < 2^32 / 64), index expressions which can overflow (label * outputs per label, label counts) are
      checked with [ci32];
    - std::visit over the matrix variant (int8/int16/int32) is a no-op here: [nm_w] carries the width (the overloads that only
      visit and forward: tsetlini_algo_bitwise.hpp:973-1010, 1118-1162, tsetlini_algo_classic.hpp:638-672, 839-879);
    - assume_aligned and __restrict have no effect on values (row alignment is property C37). *)
From Verif Require Export Containers CoinTosser.
Local Open Scope Z_scope.

(** ta_state.hpp:52-57, 83-89 TAState::value_type, TAStateWithPolarity::value_type;
    [P] is unit for the former and [bmatrix] for the latter *)
Record tastate (P : Type) := TA { ta_matrix : nmatrix; ta_weights : list Z; ta_pol : P }.
Arguments TA {P}. Arguments ta_matrix {P}. Arguments ta_weights {P}. Arguments ta_pol {P}.

(** tsetlini_algo_classic.hpp:40-45 action *)
Definition action (st : Z) : bool := 0 <=? st.
Definition b2z (b : bool) : Z := if b then 1 else 0.

(** ** tsetlini_algo_classic.hpp:51-133, 676-753 (shared by both algorithms) *)

(** 51-58 clause_outputs_range_for_label: int arithmetic *)
Definition clause_range (label opl : Z) : outcome (Z * Z) :=
  let* b := ci32 (label * opl) in
  let* e := ci32 (b + opl) in
  Ret (b, e).

(** iterations of `for (int i = b; i < e; ++i)` with b >= 0 (a negative index would be an out of bounds access) *)
Definition int_range (b e : Z) : outcome (list nat) :=
  if (b <? 0) && (b <? e) then UB OutOfBounds
  else Ret (seq (Z.to_nat b) (Z.to_nat (e - b))).

(** std::clamp *)
Definition clampZ (v lo hi : Z) : Z := if v <? lo then lo else if hi <? v then hi else v.

(** 61-98 sum_up_label_votes; sum_type = int64 *)
Definition sum_up_label_votes (co weights label_sum : list Z) (label opl threshold : Z) : outcome (list Z) :=
  let* '(b, e) := clause_range label opl in
  let* ixs := int_range b e in
  let* rv :=
    (if negb (Nat.eqb (length weights) 0) then
       ofold ixs 0 (fun oidx rv =>
         let* val := vget co oidx in
         let* w := vget weights oidx in
         ci64 (rv + (if Nat.even oidx then val * (1 + w) else - val * (1 + w))))
     else
       ofold ixs 0 (fun oidx rv =>
         let* val := vget co oidx in
         ci64 (rv + (if Nat.even oidx then val else - val)))) in
  vsetZ label_sum label (clampZ rv (- threshold) threshold).

(** 119-133 sum_up_all_label_votes *)
Definition sum_up_all_label_votes (co weights label_sum : list Z) (nlabels opl threshold : Z) : outcome (list Z) :=
  let* ixs := int_range 0 nlabels in
  ofold ixs label_sum (fun l ls => sum_up_label_votes co weights ls (Z.of_nat l) opl threshold).

(** 726-753 sum_up_regressor_votes *)
Definition sum_up_regressor_votes (co : list Z) (threshold : Z) (weights : list Z) : outcome Z :=
  let* sum :=
    (if Nat.eqb (length weights) 0 then ofold co 0 (fun v acc => ci64 (acc + v))
     else ofor 0 (length co) 0 (fun ix acc =>
       let* v := vget co ix in
       let* w := vget weights ix in
       ci64 (acc + v * (1 + w)))) in
  Ret (clampZ sum 0 threshold).

Section Feedback.
  Context (R : rnd).

  (** 676-723 calculate_classifier_feedback_to_clauses *)
  Definition feedback_loop (THR : float32) (even_fb odd_fb : Z) (ixs : list nat) (fb : list Z) (f : eF R)
    : outcome (list Z * eF R) :=
    ofold ixs (fb, f) (fun fidx '(fb, f) =>
      let '(r, f) := f_next R f in
      if f_gt r THR then Ret (fb, f)
      else
        let* fb := vset fb fidx (if Nat.even fidx then even_fb else odd_fb) in
        Ret (fb, f)).

  Definition calc_feedback (fb : list Z) (target opposite tv ov opl threshold : Z) (f : eF R)
    : outcome (list Z * eF R) :=
    let* t2 := ci32 (threshold * 2) in
    let THR2_inv := f32_div f32_one (f32_of_Z t2) in
    let* dp := ci32 (threshold - tv) in
    let THR_pos := f32_mul THR2_inv (f32_of_Z dp) in
    let* dn := ci32 (threshold + ov) in
    let THR_neg := f32_mul THR2_inv (f32_of_Z dn) in
    let fb := replicate (length fb) 0 in
    let* '(b, e) := clause_range target opl in
    let* ixs := int_range b e in
    let* '(fb, f) := feedback_loop THR_pos 1 (-1) ixs fb f in
    let* '(b, e) := clause_range opposite opl in
    let* ixs := int_range b e in
    feedback_loop THR_neg (-1) 1 ixs fb f.
End Feedback.

(** ** Classic clause evaluation, tsetlini_algo_classic.hpp:138-361 *)

Section ClassicClause.
  Context (B : nat).            (* BATCH_SZ *)
  Context (X : list Z) (m : nmatrix).
  Notation nf := (length X).

  (** 164-165, 198-199, 284-285, 314-315: action(ta_state_pos_j[fidx]), action(ta_state_neg_j[fidx]) *)
  Definition cl_actions (oidx fidx : nat) : outcome (bool * bool) :=
    let* p := nm_get m (2 * oidx + 0) fidx in
    let* n := nm_get m (2 * oidx + 1) fidx in
    Ret (action p, action n).

  (** 201: ((X | !inc) ^ 1) | ((!incn | (X ^ 1)) ^ 1) *)
  Definition cl_flag (x : Z) (inc incn : bool) : Z :=
    Z.lor (Z.lxor (Z.lor x (b2z (negb inc))) 1)
          (Z.lxor (Z.lor (b2z (negb incn)) (Z.lxor x 1)) 1).

  (** 274-291: short loop of calculate_clause_output_T, [n] iterations left *)
  Fixpoint cl_short (oidx n fidx : nat) (output : bool) : outcome bool :=
    match n with
    | O => Ret output
    | S n =>
        if output then
          let* '(inc, incn) := cl_actions oidx fidx in
          let* x := vget X fidx in
          let output := if (inc && (x =? 0)) || (incn && negb (x =? 0)) then false else output in
          cl_short oidx n (S fidx) output
        else Ret output
    end.

  (** 307-323: tile loop; [fuel] > number of tiles *)
  Fixpoint cl_tiles (fuel : nat) (oidx kk : nat) (toggle : Z) : outcome (nat * Z) :=
    match fuel with
    | O => OutOfFuel
    | S fuel =>
        if decide (kk < nf - (B - 1))%nat then
          let* toggle := ofor kk B toggle (fun fidx toggle =>
            let* '(inc, incn) := cl_actions oidx fidx in
            let* x := vget X fidx in
            let flag := cl_flag x inc incn in
            Ret (if toggle <? flag then flag else toggle)) in
          if negb (toggle =? 0) then Ret (kk, toggle)
          else cl_tiles fuel oidx (kk + B) toggle
        else Ret (kk, toggle)
    end.

  (** 324-331: tail loop *)
  Fixpoint cl_tail (oidx n fidx : nat) (toggle : Z) : outcome Z :=
    match n with
    | O => Ret toggle
    | S n =>
        if toggle =? 0 then
          let* '(inc, incn) := cl_actions oidx fidx in
          let* x := vget X fidx in
          let flag := cl_flag x inc incn in
          cl_tail oidx n (S fidx) (if toggle <? flag then flag else toggle)
        else Ret toggle
    end.

  (** body of the clause loop, 278-293 and 300-333 *)
  Definition cl_clause (oidx : nat) : outcome Z :=
    if decide (nf < B)%nat then
      let* output := cl_short oidx nf 0 true in Ret (b2z output)
    else
      let* '(kk, toggle) := cl_tiles (S nf) oidx 0 0 in
      let* toggle := cl_tail oidx (nf - kk) kk toggle in
      Ret (b2z (toggle =? 0)).

  (** 162-170: short loop with pruning; state (output, all_exclude) *)
  Fixpoint clp_short (oidx n fidx : nat) (output all_exclude : bool) : outcome (bool * bool) :=
    match n with
    | O => Ret (output, all_exclude)
    | S n =>
        if output then
          let* '(inc, incn) := cl_actions oidx fidx in
          let* x := vget X fidx in
          let all_exclude := if inc || incn then false else all_exclude in
          let output := if (inc && (x =? 0)) || (incn && negb (x =? 0)) then false else output in
          clp_short oidx n (S fidx) output all_exclude
        else Ret (output, all_exclude)
    end.

  (** 193-212; state (toggle_output, neg_all_exclude) *)
  Fixpoint clp_tiles (fuel : nat) (oidx kk : nat) (toggle nae : Z) : outcome (nat * Z * Z) :=
    match fuel with
    | O => OutOfFuel
    | S fuel =>
        if decide (kk < nf - (B - 1))%nat then
          let* '(toggle, nae) := ofor kk B (toggle, nae) (fun fidx '(toggle, nae) =>
            let* '(inc, incn) := cl_actions oidx fidx in
            let* x := vget X fidx in
            let flag := cl_flag x inc incn in
            let xflag := b2z inc + b2z incn in
            Ret (if toggle <? flag then flag else toggle, if nae <? xflag then xflag else nae)) in
          if negb (toggle =? 0) then Ret (kk, toggle, nae)
          else clp_tiles fuel oidx (kk + B) toggle nae
        else Ret (kk, toggle, nae)
    end.

  (** 213-223 *)
  Fixpoint clp_tail (oidx n fidx : nat) (toggle nae : Z) : outcome (Z * Z) :=
    match n with
    | O => Ret (toggle, nae)
    | S n =>
        if toggle =? 0 then
          let* '(inc, incn) := cl_actions oidx fidx in
          let* x := vget X fidx in
          let flag := cl_flag x inc incn in
          let xflag := b2z inc + b2z incn in
          clp_tail oidx n (S fidx) (if toggle <? flag then flag else toggle) (if nae <? xflag then xflag else nae)
        else Ret (toggle, nae)
    end.

  (** body of the clause loop with pruning, 155-175 and 184-226 *)
  Definition clp_clause (oidx : nat) : outcome Z :=
    if decide (nf < B)%nat then
      let* '(output, all_exclude) := clp_short oidx nf 0 true true in
      Ret (b2z (if all_exclude then false else output))
    else
      let* '(kk, toggle, nae) := clp_tiles (S nf) oidx 0 0 0 in
      let* '(toggle, nae) := clp_tail oidx (nf - kk) kk toggle nae in
      Ret (if nae =? 0 then 0 else b2z (toggle =? 0)).
End ClassicClause.

(** 151-152, 180-181 etc.: the (parallel) loop over clauses, executed in the order [order];
    every iteration writes clause_output[oidx] *)
Definition clause_loop (clause : nat -> outcome Z) (co : list Z) (order : list nat) : outcome (list Z) :=
  ofold order co (fun oidx co => let* v := clause oidx in vset co oidx v).

(** ** Bitwise clause evaluation, tsetlini_algo_bitwise.hpp:35-118, 210-307; blocks of 64 bits *)

Section BitwiseClause.
  Context (B : nat).
  Context (X : bit_vector) (p : bmatrix).
  Notation nblx := (bv_content_blocks 64 X).   (* feature_blocks *)
  Local Open Scope N_scope.

  (** (action_include & ~features) | (action_include_negated & features), also returns the two actions *)
  Definition bw_eval (oidx fidx : nat) : outcome (N * N * N) :=
    let* inc := bm_block p (2 * oidx + 0) fidx in
    let* incn := bm_block p (2 * oidx + 1) fidx in
    let* x := vget (bv_blocks X) fidx in
    Ret (N.lor (N.land inc (bnot 64 x)) (N.land incn x), inc, incn).

  (** 60-68 *)
  Fixpoint bw_short (oidx n fidx : nat) (output : bool) : outcome bool :=
    match n with
    | O => Ret output
    | S n => if output then
               let* '(ev, _, _) := bw_eval oidx fidx in bw_short oidx n (S fidx) (ev =? 0)
             else Ret output
    end.

  (** 86-103 *)
  Fixpoint bw_tiles (fuel : nat) (oidx kk : nat) (toggle : N) : outcome (nat * N) :=
    match fuel with
    | O => OutOfFuel
    | S fuel =>
        if decide (kk < nblx - (B - 1))%nat then
          let* toggle := ofor kk B toggle (fun fidx toggle =>
            let* '(ev, _, _) := bw_eval oidx fidx in
            Ret (if toggle <? ev then ev else toggle)) in
          if negb (toggle =? 0) then Ret (kk, toggle)
          else bw_tiles fuel oidx (kk + B) toggle
        else Ret (kk, toggle)
    end.

  (** 104-113 *)
  Fixpoint bw_tail (oidx n fidx : nat) (toggle : N) : outcome N :=
    match n with
    | O => Ret toggle
    | S n => if toggle =? 0 then
               let* '(ev, _, _) := bw_eval oidx fidx in
               bw_tail oidx n (S fidx) (if toggle <? ev then ev else toggle)
             else Ret toggle
    end.

  (** 53-71, 79-115 *)
  Definition bw_clause (oidx : nat) : outcome Z :=
    if decide (nblx < B)%nat then
      let* output := bw_short oidx nblx 0 true in Ret (b2z output)
    else
      let* '(kk, toggle) := bw_tiles (S nblx) oidx 0 0 in
      let* toggle := bw_tail oidx (nblx - kk) kk toggle in
      Ret (b2z (toggle =? 0)).

  (** 242-251; state (output, any_inclusions) *)
  Fixpoint bwp_short (oidx n fidx : nat) (output : bool) (anyi : N) : outcome (bool * N) :=
    match n with
    | O => Ret (output, anyi)
    | S n => if output then
               let* '(ev, inc, incn) := bw_eval oidx fidx in
               let u := N.lor inc incn in
               bwp_short oidx n (S fidx) (ev =? 0) (if anyi <? u then u else anyi)
             else Ret (output, anyi)
    end.

  (** 271-289 *)
  Fixpoint bwp_tiles (fuel : nat) (oidx kk : nat) (toggle anyi : N) : outcome (nat * N * N) :=
    match fuel with
    | O => OutOfFuel
    | S fuel =>
        if decide (kk < nblx - (B - 1))%nat then
          let* '(toggle, anyi) := ofor kk B (toggle, anyi) (fun fidx '(toggle, anyi) =>
            let* '(ev, inc, incn) := bw_eval oidx fidx in
            let u := N.lor inc incn in
            Ret (if toggle <? ev then ev else toggle, if anyi <? u then u else anyi)) in
          if negb (toggle =? 0) then Ret (kk, toggle, anyi)
          else bwp_tiles fuel oidx (kk + B) toggle anyi
        else Ret (kk, toggle, anyi)
    end.

  (** 290-300 *)
  Fixpoint bwp_tail (oidx n fidx : nat) (toggle anyi : N) : outcome (N * N) :=
    match n with
    | O => Ret (toggle, anyi)
    | S n => if toggle =? 0 then
               let* '(ev, inc, incn) := bw_eval oidx fidx in
               let u := N.lor inc incn in
               bwp_tail oidx n (S fidx) (if toggle <? ev then ev else toggle) (if anyi <? u then u else anyi)
             else Ret (toggle, anyi)
    end.

  (** 232-255, 262-305 *)
  Definition bwp_clause (oidx : nat) : outcome Z :=
    if decide (nblx < B)%nat then
      let* '(output, anyi) := bwp_short oidx nblx 0 true 0 in
      Ret (b2z (if 0 <? anyi then output else false))
    else
      let* '(kk, toggle, anyi) := bwp_tiles (S nblx) oidx 0 0 0 in
      let* '(toggle, anyi) := bwp_tail oidx (nblx - kk) kk toggle anyi in
      let toggle := if 0 <? anyi then toggle else 1 in
      Ret (b2z (toggle =? 0)).
End BitwiseClause.

(** tsetlini_algo_common.hpp:43-155: the switch over TILE_SZ, anything else falls back to 16 *)
Definition tile_of (TILE_SZ : Z) : nat :=
  if TILE_SZ =? 128 then 128%nat
  else if TILE_SZ =? 64 then 64%nat
  else if TILE_SZ =? 32 then 32%nat
  else 16%nat.

(** ** Classic feedback, tsetlini_algo_classic.hpp:369-572. [j] is the clause: rows 2 j and 2 j + 1. *)

(** 369-400 block1: Type I, clause did not fire *)
Definition dec_if (N : Z) (cond : Z) (st : Z) : Z :=
  if negb (cond =? 0) then (if - N <? st then st - 1 else st) else st.
Definition block1 (nf : nat) (N : Z) (j : nat) (ct1 ct2 : list Z) (m : nmatrix) : outcome nmatrix :=
  ofor 0 nf m (fun fidx m =>
    let* cond := vget ct1 fidx in
    let* p := nm_get m (2 * j + 0) fidx in
    let* m := nm_set m (2 * j + 0) fidx (dec_if N cond p) in
    let* cond := vget ct2 fidx in
    let* n := nm_get m (2 * j + 1) fidx in
    nm_set m (2 * j + 1) fidx (dec_if N cond n)).

(** 408-477 block2: Type I, clause fired. `Xcond_1 & cond1 & cond_inc` is a bitwise and of a char and bools:
    for x in {0,1} it is a conjunction; modelled with Z.land on the promoted ints. *)
Definition block2 (boost : bool) (nf : nat) (N : Z) (j : nat) (X ct1 ct2 : list Z) (m : nmatrix) : outcome nmatrix :=
  ofor 0 nf m (fun fidx m =>
    let* c1 := vget ct1 fidx in
    let* c2 := vget ct2 fidx in
    let cond1_pos := b2z (boost || (c1 =? 0)) in
    let cond2_pos := c1 in
    let cond1_neg := b2z (boost || (c2 =? 0)) in
    let cond2_neg := c2 in
    let* x := vget X fidx in
    let Xcond_1 := x in
    let Xcond_0 := b2z (x =? 0) in
    let* p := nm_get m (2 * j + 0) fidx in
    let* n := nm_get m (2 * j + 1) fidx in
    let cond_pos_inc := b2z (p <? N - 1) in
    let cond_pos_dec := b2z (- N <? p) in
    let cond_neg_inc := b2z (n <? N - 1) in
    let cond_neg_dec := b2z (- N <? n) in
    let nz z := negb (z =? 0) in
    let* p := nm_get m (2 * j + 0) fidx in
    let* m := nm_set m (2 * j + 0) fidx (if nz (Z.land (Z.land Xcond_1 cond1_pos) cond_pos_inc) then p + 1 else p) in
    let* n := nm_get m (2 * j + 1) fidx in
    let* m := nm_set m (2 * j + 1) fidx (if nz (Z.land (Z.land Xcond_1 cond2_neg) cond_neg_dec) then n - 1 else n) in
    let* p := nm_get m (2 * j + 0) fidx in
    let* m := nm_set m (2 * j + 0) fidx (if nz (Z.land (Z.land Xcond_0 cond2_pos) cond_pos_dec) then p - 1 else p) in
    let* n := nm_get m (2 * j + 1) fidx in
    nm_set m (2 * j + 1) fidx (if nz (Z.land (Z.land Xcond_0 cond1_neg) cond_neg_inc) then n + 1 else n)).

(** 525-549 block3: Type II *)
Definition block3 (nf : nat) (j : nat) (X : list Z) (m : nmatrix) : outcome nmatrix :=
  ofor 0 nf m (fun fidx m =>
    let* x := vget X fidx in
    let X_cond_0 := Z.lxor x 1 in
    let X_cond_1 := x in
    let* p := nm_get m (2 * j + 0) fidx in
    let* n := nm_get m (2 * j + 1) fidx in
    let X_pos_inc := b2z (p <? 0) in
    let X_neg_inc := b2z (n <? 0) in
    let* m := nm_set m (2 * j + 0) fidx (if negb (Z.land X_cond_0 X_pos_inc =? 0) then p + 1 else p) in
    let* n := nm_get m (2 * j + 1) fidx in
    nm_set m (2 * j + 1) fidx (if negb (Z.land X_cond_1 X_neg_inc =? 0) then n + 1 else n)).

(** ** Bitwise feedback, tsetlini_algo_bitwise.hpp:410-885 *)

Section BitwiseBlocks.
  Context (R : rnd).
  Notation G := (eG R).

  (** 489-498, 502-511: decrement one automaton of row [r], flipping polarity when it was 0 *)
  Definition bw_dec_cell (N : Z) (r fidx : nat) (m : nmatrix) (p : bmatrix) : outcome (nmatrix * bmatrix) :=
    let* st := nm_get m r fidx in
    let* p := (if st =? 0 then bm_flip 64 p r fidx else Ret p) in
    let* m := (if - N <? st then nm_set m r fidx (st - 1) else Ret m) in
    Ret (m, p).

  (** prng() % value_of(number_of_features): unsigned modulo *)
  Definition draw_mod (g : G) (n : nat) : outcome (nat * G) :=
    let '(r, g) := g_next R g in
    if Nat.eqb n 0 then UB DivByZero else Ret (Z.to_nat (r mod Z.of_nat n), g).

  (** 473-518 block1_sparse (the variant in use); hits is unsigned converted to int: a value above INT_MAX
      would become negative, i.e. no iterations *)
  Definition block1_sparse (nf : nat) (hits : Z) (N : Z) (j : nat) (mp : nmatrix * bmatrix) (g : G)
    : outcome (nmatrix * bmatrix * G) :=
    let* ixs := int_range 0 (wrap_s 32 hits) in
    ofold ixs (mp, g) (fun _ '(mp, g) =>
      let* '(fidx, g) := draw_mod g nf in
      let* mp := bw_dec_cell N (2 * j + 0) fidx mp.1 mp.2 in
      let* '(fidx, g) := draw_mod g nf in
      let* mp := bw_dec_cell N (2 * j + 1) fidx mp.1 mp.2 in
      Ret (mp, g)).

  (** 593-679 block2 (char coin tosses; the variant in use) *)
  Definition bw_block2 (boost : bool) (N : Z) (j : nat) (X : bit_vector) (ct1 ct2 : list Z)
             (mp : nmatrix * bmatrix) : outcome (nmatrix * bmatrix) :=
    let nf := bv_len X in
    let rp := (2 * j + 0)%nat in
    let rn := (2 * j + 1)%nat in
    ofor 0 nf mp (fun fidx '(m, p) =>
      let* c1 := vget ct1 fidx in
      let* c2 := vget ct2 fidx in
      let cond1_pos := boost || (c1 =? 0) in
      let cond2_pos := negb (c1 =? 0) in
      let cond1_neg := boost || (c2 =? 0) in
      let cond2_neg := negb (c2 =? 0) in
      let* x := bv_get 64 X fidx in
      if x then
        let* '(m, p) :=
          (if cond1_pos then
             let* st := nm_get m rp fidx in
             let* m := (if st <? N - 1 then nm_set m rp fidx (st + 1) else Ret m) in
             let* st := nm_get m rp fidx in
             let* p := (if st =? 0 then bm_flip 64 p rp fidx else Ret p) in
             Ret (m, p)
           else Ret (m, p)) in
        if cond2_neg then bw_dec_cell N rn fidx m p else Ret (m, p)
      else
        let* '(m, p) :=
          (if cond1_neg then
             let* st := nm_get m rn fidx in
             if st <? N - 1 then
               let* m := nm_set m rn fidx (st + 1) in
               let* st := nm_get m rn fidx in
               let* p := (if st =? 0 then bm_flip 64 p rn fidx else Ret p) in
               Ret (m, p)
             else Ret (m, p)
           else Ret (m, p)) in
        if cond2_pos then bw_dec_cell N rp fidx m p else Ret (m, p)).

  (** 844-875 lambda process_block of block3. [bits] = this_block_bits.
      State of the inner loop: matrix, pos_inc, neg_inc, pos_polarity_flip, neg_polarity_flip. *)
  Definition block3_bits (j k : nat) (bits : nat) (m : nmatrix) (pos_inc neg_inc : N)
    : outcome (nmatrix * N * N * N * N) :=
    ofor 0 bits (m, pos_inc, neg_inc, 0%N, 0%N) (fun bix '(m, pos_inc, neg_inc, pflip, nflip) =>
      let pos_bit := N.land pos_inc 1 in
      let neg_bit := N.land neg_inc 1 in
      let c := (k * 64 + bix)%nat in
      let* st := nm_get m (2 * j + 0) c in
      let* m := nm_set m (2 * j + 0) c (st + Z.of_N pos_bit) in
      let* st := nm_get m (2 * j + 1) c in
      let* m := nm_set m (2 * j + 1) c (st + Z.of_N neg_bit) in
      let* st := nm_get m (2 * j + 0) c in
      let pflip := N.lor pflip (N.shiftl (N.land (if (st =? 0)%Z then 1%N else 0%N) pos_bit) (N.of_nat bix)) in
      let* st := nm_get m (2 * j + 1) c in
      let nflip := N.lor nflip (N.shiftl (N.land (if (st =? 0)%Z then 1%N else 0%N) neg_bit) (N.of_nat bix)) in
      Ret (m, N.shiftr pos_inc 1, N.shiftr neg_inc 1, pflip, nflip)).
  Definition block3_process (j : nat) (X : bit_vector) (k bits : nat) (mp : nmatrix * bmatrix)
    : outcome (nmatrix * bmatrix) :=
    let '(m, p) := mp in
    let* x := vget (bv_blocks X) k in
    let X_0 := bnot 64 x in
    let X_1 := x in
    let* pp := bm_block p (2 * j + 0) k in
    let* pn := bm_block p (2 * j + 1) k in
    let pos_inc := N.land X_0 (bnot 64 pp) in
    let neg_inc := N.land X_1 (bnot 64 pn) in
    let* '(m, _, _, pflip, nflip) := block3_bits j k bits m pos_inc neg_inc in
    let* pp := bm_block p (2 * j + 0) k in
    let* p := bm_set_block p (2 * j + 0) k (N.lxor pp pflip) in
    let* pn := bm_block p (2 * j + 1) k in
    let* p := bm_set_block p (2 * j + 1) k (N.lxor pn nflip) in
    Ret (m, p).
  (** 823-885 block3 (blockwise; the variant in use) *)
  Definition bw_block3 (j : nat) (X : bit_vector) (mp : nmatrix * bmatrix) : outcome (nmatrix * bmatrix) :=
    let tail := bv_tail_bits 64 X in
    let full := (bv_content_blocks 64 X - (if Nat.eqb tail 0 then 0 else 1))%nat in
    let* mp := ofor 0 full mp (fun k mp => block3_process j X k 64 mp) in
    if Nat.eqb tail 0 then Ret mp else block3_process j X full tail mp.
End BitwiseBlocks.

(** ** The algorithm as a C++ template argument: sample type, TA state type and overloads selected by them. *)

(** status of input checks is in Estimator.v; here only what the training / inference templates need *)
Record algo (R : rnd) := Algo {
  a_smp : Type;                                  (* SampleType *)
  a_pol : Type;                                  (* extra TA state *)
  a_pol0 : a_pol;                                (* default constructed *)
  a_size : a_smp -> nat;                         (* sample.size() *)
  a_01 : a_smp -> bool;                          (* check_all_0s_or_1s *)
  a_pad : a_smp -> outcome bool;                 (* check_clear_padding *)
  (* TAState::initialize / TAStateWithPolarity::initialize: width, clauses, features *)
  a_init : Z -> nat -> nat -> eG R -> outcome (nmatrix * a_pol * eG R);
  a_clause : nat -> a_smp -> tastate a_pol -> nat -> outcome Z;          (* tile, clause *)
  a_clause_pruned : nat -> a_smp -> tastate a_pol -> nat -> outcome Z;
  (* Type I feedback to a clause with output 0: N, sample, clause *)
  a_type1_neg : Z -> a_smp -> nat -> nmatrix * a_pol -> coin_tosser -> eG R
                -> outcome (nmatrix * a_pol * coin_tosser * eG R);
  (* Type I feedback to a clause with output 1: boost, N, sample, clause *)
  a_type1_pos : bool -> Z -> a_smp -> nat -> nmatrix * a_pol -> coin_tosser -> eG R
                -> outcome (nmatrix * a_pol * coin_tosser * eG R);
  (* Type II feedback *)
  a_type2 : a_smp -> nat -> nmatrix * a_pol -> outcome (nmatrix * a_pol);
}.
Arguments a_smp {R}. Arguments a_pol {R}. Arguments a_pol0 {R}. Arguments a_size {R}. Arguments a_01 {R}.
Arguments a_pad {R}. Arguments a_init {R}. Arguments a_clause {R}. Arguments a_clause_pruned {R}.
Arguments a_type1_neg {R}. Arguments a_type1_pos {R}. Arguments a_type2 {R}.

Section Train.
  Context {R : rnd} (A : algo R).
  Notation G := (eG R).
  Notation ta := (tastate (a_pol A)).

  (** weights[iidx] += ((weights[iidx] + 1) < max_weight): uint32 arithmetic *)
  Definition weight_inc (max_weight : Z) (ws : list Z) (j : nat) : outcome (list Z) :=
    if Nat.eqb (length ws) 0 then Ret ws
    else let* w := vget ws j in vset ws j (u32 (w + b2z (u32 (w + 1) <? max_weight))).
  (** weights[iidx] -= (weights[iidx] != 0) *)
  Definition weight_dec (ws : list Z) (j : nat) : outcome (list Z) :=
    if Nat.eqb (length ws) 0 then Ret ws
    else let* w := vget ws j in vset ws j (u32 (w - b2z (negb (w =? 0)))).

  (** tsetlini_algo_classic.hpp:599-622, tsetlini_algo_bitwise.hpp:912-951 (classifier);
      798-823, 1060-1096 (regressor): Type I feedback to one clause *)
  Definition give_type1 (boost : bool) (N max_weight : Z) (X : a_smp A) (co : list Z) (j : nat)
             (s : ta) (ct : coin_tosser) (g : G) : outcome (ta * coin_tosser * G) :=
    let* c := vget co j in
    if c =? 0 then
      let* '(m, p, ct, g) := a_type1_neg A N X j (ta_matrix s, ta_pol s) ct g in
      Ret (TA m (ta_weights s) p, ct, g)
    else
      let* '(m, p, ct, g) := a_type1_pos A boost N X j (ta_matrix s, ta_pol s) ct g in
      let* ws := weight_inc max_weight (ta_weights s) j in
      Ret (TA m ws p, ct, g).

  (** tsetlini_algo_classic.hpp:624-633 (tests == 1), 825-834 (tests != 0), tsetlini_algo_bitwise.hpp:953-968, 1099-1113 *)
  Definition give_type2 (X : a_smp A) (j : nat) (s : ta) : outcome ta :=
    let* '(m, p) := a_type2 A X j (ta_matrix s, ta_pol s) in
    let* ws := weight_dec (ta_weights s) j in
    Ret (TA m ws p).

  (** tsetlini_algo_classic.hpp:575-635, tsetlini_algo_bitwise.hpp:888-970 train_classifier_automata.
      (The first tests `feedback >= 1` / `<= -1`, the second `> 0` / `< 0`: the same on integers.) *)
  Definition train_classifier (ixs : list nat) (fb co : list Z) (N : Z) (X : a_smp A) (max_weight : Z) (boost : bool)
             (s : ta) (ct : coin_tosser) (g : G) : outcome (ta * coin_tosser * G) :=
    ofold ixs (s, ct, g) (fun j '(s, ct, g) =>
      let* f := vget fb j in
      if 1 <=? f then give_type1 boost N max_weight X co j s ct g
      else if f <=? -1 then
        let* c := vget co j in
        if c =? 1 then let* s := give_type2 X j s in Ret (s, ct, g) else Ret (s, ct, g)
      else Ret (s, ct, g)).

  (** tsetlini_algo_classic.hpp:775-792: number of feedback hits, N and P given.
      `N * P >= 0.5` compares in double; the ternary has type float (std::round(float)), the bool is converted *)
  Definition feedback_hits (box_muller : bool) (n : Z) (P : float32) (g : G) : outcome (Z * G) :=
    if box_muller then bm_binomial R n P g
    else
      let np := f32_mul (f32_of_Z n) P in
      let* '(v, g) :=
        (if f_ge (f64_of_f32 np) f64_half then let* v := to_u32 (f32_round np) in Ret (v, g)
         else
           let '(r, g) := g_next R g in
           Ret (b2z (f_lt (f64_of_Z r) (f64_mul (f64_of_f32 np) (f64_of_Z 4294967295))), g)) in
      Ret (Z.max 0 (Z.min v n), g).

  (** tsetlini_algo_classic.hpp:756-836, tsetlini_algo_bitwise.hpp:1014-1115 train_regressor_automata with
      input_begin_ix = 0, input_end_ix = n (the only call, tsetlini.cpp:813-828) *)
  Definition train_regressor (n : Z) (co : list Z) (N err : Z) (X : a_smp A) (max_weight : Z)
             (loss : float32 -> float32) (box_muller boost : bool) (threshold : Z)
             (s : ta) (ct : coin_tosser) (g : G) : outcome (ta * coin_tosser * G) :=
    let P := loss (f32_div (f32_of_Z err) (f32_of_Z threshold)) in
    let* '(hits, g) := feedback_hits box_muller n P g in
    ofor 0 (Z.to_nat hits) (s, ct, g) (fun _ '(s, ct, g) =>
      let* '(j, g) := draw_mod R g (Z.to_nat n) in
      if err <? 0 then give_type1 boost N max_weight X co j s ct g
      else if 0 <? err then
        let* c := vget co j in
        if negb (c =? 0) then let* s := give_type2 X j s in Ret (s, ct, g) else Ret (s, ct, g)
      else Ret (s, ct, g)).
End Train.

(** ** Instances *)

Section Instances.
  Context (R : rnd).
  Notation G := (eG R).

  (** mt.hpp:249-253 next(a, b): a + rand() % (b + 1 - a), unsigned; here a = -1, b = 0, stored to a signed cell *)
  Definition igen_m1_0 (g : G) : Z * G := let '(r, g) := g_next R g in (u32 (-1 + r mod 2), g).

  (** ta_state.cpp:16-38, 41-66 TAState::initialize (matrix part) *)
  Definition classic_init (w : Z) (rows cols : nat) (g : G) : outcome (nmatrix * unit * G) :=
    let m := nm_new w rows cols in
    let* '(m, g) :=
      ofor 0 (nm_rows m) (m, g) (fun rit '(m, g) =>
        ofor 0 (nm_cols m) (m, g) (fun cit '(m, g) =>
          let '(v, g) := igen_m1_0 g in
          let* m := nm_set m rit cit v in
          Ret (m, g))) in
    Ret (m, tt, g).

  (** ta_state.cpp:75-113 TAStateWithPolarity::initialize (matrix and polarity part) *)
  Definition bitwise_init (w : Z) (rows cols : nat) (g : G) : outcome (nmatrix * bmatrix * G) :=
    let m := nm_new w rows cols in
    let p := bm_new 64 rows cols in
    let* '(m, p, g) :=
      ofor 0 (nm_rows m) (m, p, g) (fun rit '(m, p, g) =>
        ofor 0 (nm_cols m) (m, p, g) (fun cit '(m, p, g) =>
          let '(v, g) := igen_m1_0 g in
          let* m := nm_set m rit cit v in
          let* st := nm_get m rit cit in
          let* p := (if 0 <=? st then bm_set 64 p rit cit else bm_clear 64 p rit cit) in
          Ret (m, p, g))) in
    Ret (m, p, g).

  (** tsetlini.cpp:45-49 check_all_0s_or_1s *)
  Definition classic_01 (X : list Z) : bool := forallb (fun v => (v =? 0) || (v =? 1)) X.

  (** tsetlini.cpp:67-84 check_clear_padding for bit vectors; shift count >= 64 is UB;
      vec.m_vector.back() of an empty vector would be UB but then there is no padding *)
  Definition bitwise_pad (v : bit_vector) : outcome bool :=
    let pad := Z.of_nat (bv_capacity_blocks v) * 64 - Z.of_nat (bv_len v) in
    if negb (pad =? 0) then
      let sh := 64 - pad in
      if (sh <? 0) || (64 <=? sh) then UB BadShift
      else
        match last (bv_blocks v) with
        | None => UB EmptyDeref
        | Some b =>
            let mask := N.ldiff (N.ones 64) (N.ones (Z.to_N sh)) in
            Ret (N.eqb (N.land b mask) 0)
        end
    else Ret true.

  Definition classic : algo R := {|
    a_smp := list Z;
    a_pol := unit;
    a_pol0 := tt;
    a_size X := length X;
    a_01 := classic_01;
    a_pad _ := Ret true;
    a_init := classic_init;
    a_clause B X s oidx := cl_clause B X (ta_matrix s) oidx;
    a_clause_pruned B X s oidx := clp_clause B X (ta_matrix s) oidx;
    a_type1_neg N X j mp ct g :=
      let* '(ct, g) := ct_tosses12 R ct g in
      let* m := block1 (length X) N j (ct_c1 ct) (ct_c2 ct) mp.1 in Ret (m, mp.2, ct, g);
    a_type1_pos boost N X j mp ct g :=
      let* '(ct, g) := ct_tosses12 R ct g in
      let* m := block2 boost (length X) N j X (ct_c1 ct) (ct_c2 ct) mp.1 in Ret (m, mp.2, ct, g);
    a_type2 X j mp := let* m := block3 (length X) j X mp.1 in Ret (m, mp.2);
  |}.

  Definition bitwise : algo R := {|
    a_smp := bit_vector;
    a_pol := bmatrix;
    a_pol0 := bm_empty;
    a_size := bv_len;
    a_01 _ := true;
    a_pad := bitwise_pad;
    a_init := bitwise_init;
    a_clause B X s oidx := bw_clause B X (ta_pol s) oidx;
    a_clause_pruned B X s oidx := bwp_clause B X (ta_pol s) oidx;
    a_type1_neg N X j mp ct g :=
      let '(hits, g) := ct_estimate_hits R ct g in
      let* '(mp, g) := block1_sparse R (bv_len X) hits N j mp g in Ret (mp, ct, g);
    a_type1_pos boost N X j mp ct g :=
      let* '(ct, g) := ct_tosses12 R ct g in
      let* mp := bw_block2 boost N j X (ct_c1 ct) (ct_c2 ct) mp in Ret (mp, ct, g);
    a_type2 X j mp := bw_block3 j X mp;
  |}.
End Instances.
