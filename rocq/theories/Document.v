(** * A reader of saved models: what a saved document says about predictions, without the library.
    This file is a specification, written against JSON values only.  It is not a model of code in /repo; it states what the members written
    by lib/src/tsetlini_state_json.cpp mean. *)
From Verif Require Export Json.
From stdpp Require Import list option.
Local Open Scope Z_scope.

(** a member of an object, the elements of an array, an integer of either kind *)
Definition member (j : json) (k : string) : option json :=
  match j with JObj l => snd <$> List.find (fun m => (m.1 =? k)%string) l | _ => None end.
Definition array (j : json) : option (list json) := match j with JArr l => Some l | _ => None end.
Definition integer (j : json) : option Z := match j with JInt z | JUns z => Some z | _ => None end.
Definition integers (j : json) : option (list Z) := array j ≫= mapM integer.

(** what predictions depend on: number of labels, of clauses (per label), of features, threshold, one row of automata per clause and kind of
    literal, one weight per clause or none *)
Record saved := Saved {
  sv_labels : Z; sv_clauses : Z; sv_features : Z; sv_threshold : Z; sv_rows : list (list Z); sv_weights : list Z }.

Definition rows_of (doc : json) : option (list (list Z)) :=
  t ← member doc "ta_state"; m ← member t "matrix"; d ← member m "data"; rows ← array d; mapM integers rows.
Definition weights_of (doc : json) : option (list Z) := t ← member doc "ta_state"; w ← member t "weights"; integers w.
Definition param_of (doc : json) (k : string) : option Z := p ← member doc "params"; v ← member p k; integer v.
Definition read_classifier (doc : json) : option saved :=
  L ← param_of doc "number_of_labels"; n ← param_of doc "number_of_clauses_per_label"; f ← param_of doc "number_of_features";
  T ← param_of doc "threshold"; rows ← rows_of doc; ws ← weights_of doc; Some (Saved L n f T rows ws).
Definition read_regressor (doc : json) : option saved :=
  n ← param_of doc "number_of_regressor_clauses"; f ← param_of doc "number_of_features";
  T ← param_of doc "threshold"; rows ← rows_of doc; ws ← weights_of doc; Some (Saved 1 n f T rows ws).

(** feature [k] is 1 in the sample: [x k] *)
Section Answer.
  Context (m : saved) (x : nat -> bool).
  (** literal [k] is included in row [r]: its automaton is not negative *)
  Definition included (r k : nat) : bool := 0 <=? nth k (nth r (sv_rows m) []) (-1).
  (** clause [j]: rows 2 j (features) and 2 j + 1 (negated features) *)
  Definition agrees (j k : nat) : bool := negb (included (2 * j) k && negb (x k)) && negb (included (2 * j + 1) k && x k).
  Definition features : list nat := seq 0 (Z.to_nat (sv_features m)).
  Definition clause_output (j : nat) : bool :=
    forallb (agrees j) features && existsb (fun k => included (2 * j) k || included (2 * j + 1) k) features.
  Definition clause_votes (j : nat) : Z := if clause_output j then 1 + nth j (sv_weights m) 0 else 0.
  Definition sum (l : list Z) : Z := fold_right Z.add 0 l.
  Definition limit (lo hi v : Z) : Z := if v <? lo then lo else if hi <? v then hi else v.
  (** half of the clauses of the parameter exist (each is a pair of rows); the even ones vote for their label, the odd ones against it *)
  Definition pairs : nat := Z.to_nat (sv_clauses m / 2).
  Definition votes_for (l : nat) : Z :=
    limit (- sv_threshold m) (sv_threshold m)
      (sum (map (fun i => if Nat.even i then clause_votes (l * pairs + i) else - clause_votes (l * pairs + i)) (seq 0 pairs))).
  Definition document_votes : list Z := map votes_for (seq 0 (Z.to_nat (sv_labels m))).
  Definition document_response : Z := limit 0 (sv_threshold m) (sum (map clause_votes (seq 0 pairs))).
  (** the label of the first of the largest votes *)
  Definition wins (l : nat) : Prop :=
    (l < Z.to_nat (sv_labels m))%nat /\ forall l', (l' < Z.to_nat (sv_labels m))%nat ->
      votes_for l' <= votes_for l /\ ((l' < l)%nat -> votes_for l' < votes_for l).
End Answer.

(** ** Documents written or edited by hand.
    [bytes_of]: the bytes of an automaton.  [same_rest]: the two documents have the same generators and parameters.  [sound_state n f weighted
    maxw]: the learning state is [n] rows of [f] automata that fit their bytes, and one weight for every two rows, from 0 to [maxw] - 1, or
    none if not [weighted]; the matrix has less than 2^32 cells, each row being padded to a multiple of 64 bytes. *)
Definition bytes_of (doc : json) : option Z := t ← member doc "ta_state"; m ← member t "matrix"; w ← member m "width"; integer w.
Definition same_rest (doc doc' : json) : Prop :=
  member doc' "igen" = member doc "igen" /\ member doc' "fgen" = member doc "fgen" /\ member doc' "params" = member doc "params".
Definition sound_state (n f : Z) (weighted : bool) (maxw : Z) (doc : json) : Prop :=
  exists w rows ws, bytes_of doc = Some w /\ rows_of doc = Some rows /\ weights_of doc = Some ws /\
    (w = 1 \/ w = 2 \/ w = 4) /\ Z.of_nat (length rows) = n /\ n * (f * w + 63) < 2 ^ 32 /\
    Forall (fun row => Z.of_nat (length row) = f /\ Forall (fun z => - 2 ^ (8 * w - 1) <= z < 2 ^ (8 * w - 1)) row) rows /\
    if weighted then 2 * Z.of_nat (length ws) = n /\ Forall (fun v => 0 <= v < maxw) ws else ws = [].

(** bitwise estimators also store one bit per automaton, in rows of 64-bit blocks, each row padded to a multiple of 8 blocks.
    [matching_polarity n f doc]: there are [n] rows of [f] bits; a bit is 1 where the automaton is not negative; those past the last are 0. *)
Definition polarity_of (doc : json) : option (Z * Z * list Z) :=
  t ← member doc "ta_state"; p ← member t "polarity"; r ← member p "rows" ≫= integer; c ← member p "cols" ≫= integer; d ← member p "data" ≫= integers;
  Some (r, c, d).
Definition blocks_per_row (f : Z) : Z := (f + 511) / 512 * 8.
Definition matching_polarity (n f : Z) (doc : json) : Prop :=
  exists rows blocks, rows_of doc = Some rows /\ polarity_of doc = Some (n, f, blocks) /\
    Z.of_nat (length blocks) = n * blocks_per_row f /\ Forall (fun b => 0 <= b < 2 ^ 64) blocks /\
    forall r c, 0 <= r < n -> 0 <= c < 64 * blocks_per_row f ->
      Z.testbit (nth (Z.to_nat (r * blocks_per_row f + c / 64)) blocks 0) (c mod 64) = (0 <=? nth (Z.to_nat c) (nth (Z.to_nat r) rows []) (-1)).
