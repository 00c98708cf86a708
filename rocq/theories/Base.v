(** * Base: outcomes, machine integers, vectors.

    Nothing here models a particular function of /repo; it fixes the vocabulary in which the C++ is transcribed.
    - [Throw]     : a C++ exception leaves the function.
    - [UB]        : undefined behaviour (C++17 rules); a model value of this form makes no further promise.
    - [OutOfFuel] : an unbounded loop did not finish within the fuel; excluded explicitly by theorem statements. *)
From stdpp Require Export prelude base list numbers.
From Coq Require Export ZArith.

Inductive ub_kind :=
| OutOfBounds        (* vector / pointer access outside the storage *)
| DivByZero          (* integer / or % by zero *)
| SignedOverflow     (* signed int / int64 arithmetic overflow *)
| BadShift           (* shift count >= width *)
| FloatToInt         (* float to integer conversion of an unrepresentable value *)
| EmptyDeref.        (* dereferencing front()/max_element of an empty container *)

Inductive exn :=
| OutOfRange         (* std::out_of_range from map.at *)
| BadVariant         (* std::bad_variant_access from std::get *)
| JsonTypeError      (* nlohmann::json::type_error *)
| JsonOutOfRange     (* nlohmann::json::out_of_range *)
| JsonParseError     (* nlohmann::json::parse_error, or out_of_range for a number too large for double, from json::parse *)
| ProcessExit        (* std::exit(1), loss_fn.cpp *)
| AssertFailed.      (* abort() by assert (JSON_ASSERT of json.hpp) *)

Inductive outcome (A : Type) :=
| Ret (a : A)
| Throw (e : exn)
| UB (k : ub_kind)
| OutOfFuel.
Arguments Ret {A} a.
Arguments Throw {A} e.
Arguments UB {A} k.
Arguments OutOfFuel {A}.

Definition obind {A B} (o : outcome A) (f : A -> outcome B) : outcome B :=
  match o with
  | Ret a => f a
  | Throw e => Throw e
  | UB k => UB k
  | OutOfFuel => OutOfFuel
  end.

Notation "'let*' x := e1 'in' e2" := (obind e1 (fun x => e2))
  (at level 200, x name, e1 at level 100, e2 at level 200, right associativity).
Notation "'let*' ' p := e1 'in' e2" := (obind e1 (fun p => e2))
  (at level 200, p strict pattern, e1 at level 100, e2 at level 200, right associativity).

(** [for i in l: s := body i s] *)
Fixpoint ofold {I St} (l : list I) (s : St) (body : I -> St -> outcome St) : outcome St :=
  match l with
  | [] => Ret s
  | i :: l' => let* s' := body i s in ofold l' s' body
  end.

(** [for (i = b; i < b + n; ++i)] *)
Definition ofor {St} (b n : nat) (s : St) (body : nat -> St -> outcome St) : outcome St :=
  ofold (seq b n) s body.

Fixpoint omap {A B} (f : A -> outcome B) (l : list A) : outcome (list B) :=
  match l with
  | [] => Ret []
  | a :: l' => let* b := f a in let* bs := omap f l' in Ret (b :: bs)
  end.

(** Vectors: unchecked operator[] has UB outside the storage. *)
Definition vget {A} (l : list A) (i : nat) : outcome A :=
  match l !! i with Some a => Ret a | None => UB OutOfBounds end.
Definition vset {A} (l : list A) (i : nat) (x : A) : outcome (list A) :=
  if decide (i < length l) then Ret (<[i := x]> l) else UB OutOfBounds.
Definition vgetZ {A} (l : list A) (i : Z) : outcome A :=
  if (i <? 0)%Z then UB OutOfBounds else vget l (Z.to_nat i).
Definition vsetZ {A} (l : list A) (i : Z) (x : A) : outcome (list A) :=
  if (i <? 0)%Z then UB OutOfBounds else vset l (Z.to_nat i) x.

(** Machine integers. *)
Definition int_max : Z := 2147483647.
Definition int_min : Z := -2147483648.
Definition in_i32 (z : Z) : bool := (int_min <=? z)%Z && (z <=? int_max)%Z.
Definition in_i64 (z : Z) : bool := (-9223372036854775808 <=? z)%Z && (z <=? 9223372036854775807)%Z.
(** result of a signed int (int64) expression: overflow is UB *)
Definition ci32 (z : Z) : outcome Z := if in_i32 z then Ret z else UB SignedOverflow.
Definition ci64 (z : Z) : outcome Z := if in_i64 z then Ret z else UB SignedOverflow.
(** unsigned 32-bit arithmetic wraps *)
Definition u32 (z : Z) : Z := (z mod 4294967296)%Z.
(** store into a signed integer object of [w] bits: modular (implementation-defined before C++20, modular on all
    supported compilers) *)
Definition wrap_s (w : Z) (z : Z) : Z := ((z + 2 ^ (w - 1)) mod 2 ^ w - 2 ^ (w - 1))%Z.

Definition is_ret {A} (o : outcome A) : bool := match o with Ret _ => true | _ => false end.
Definition is_ub {A} (o : outcome A) : bool := match o with UB _ => true | _ => false end.

(** ** Generic lemmas about the vocabulary *)

Lemma obind_ret_inv {A B} (o : outcome A) (f : A -> outcome B) b :
  obind o f = Ret b -> exists a, o = Ret a /\ f a = Ret b.
Proof. destruct o; simpl; intros; try discriminate; eauto. Qed.

Lemma ofold_app {I St} (l1 l2 : list I) (s : St) body :
  ofold (l1 ++ l2) s body = obind (ofold l1 s body) (fun s' => ofold l2 s' body).
Proof.
  revert s; induction l1 as [|i l1 IH]; intros s; simpl; [done|].
  destruct (body i s); simpl; auto.
Qed.

Lemma ofold_ext {I St} (l : list I) (s : St) f g :
  (forall i s', i ∈ l -> f i s' = g i s') -> ofold l s f = ofold l s g.
Proof.
  revert s; induction l as [|i l IH]; intros s H; simpl; [done|].
  rewrite H by left. destruct (g i s); simpl; auto.
  apply IH. intros; apply H; by right.
Qed.

(** invariant rule: if every iteration of the loop succeeds and preserves the invariant *)
Lemma ofor_inv {St} (P : nat -> St -> Prop) b n (s : St) body :
  P b s ->
  (forall i s', b <= i < b + n -> P i s' -> exists s'', body i s' = Ret s'' /\ P (i + 1) s'') ->
  exists s', ofor b n s body = Ret s' /\ P (b + n) s'.
Proof.
  unfold ofor. revert b s; induction n as [|n IH]; intros b s H0 Hstep; simpl.
  - exists s. by rewrite Nat.add_0_r.
  - destruct (Hstep b s) as (s1 & E1 & H1); [lia|done|]. rewrite E1; simpl.
    replace (b + S n) with (Datatypes.S b + n) by lia.
    apply IH.
    + by replace (Datatypes.S b) with (b + 1) by lia.
    + intros i s' Hi Hp. apply Hstep; [lia|done].
Qed.

(** partial-correctness invariant rule *)
Lemma ofold_pres {I St} (P : St -> Prop) (l : list I) (s s' : St) body :
  P s ->
  (forall i s1 s2, i ∈ l -> P s1 -> body i s1 = Ret s2 -> P s2) ->
  ofold l s body = Ret s' -> P s'.
Proof.
  revert s; induction l as [|i l IH]; intros s H0 Hstep; simpl.
  - by intros [= <-].
  - destruct (body i s) as [s1| | |] eqn:E; simpl; try discriminate.
    apply IH.
    + eapply Hstep; eauto. left.
    + intros; eapply Hstep; eauto. by right.
Qed.

Lemma ofold_total {I St} (P : St -> Prop) (l : list I) (s : St) body :
  P s ->
  (forall i s1, i ∈ l -> P s1 -> exists s2, body i s1 = Ret s2 /\ P s2) ->
  exists s', ofold l s body = Ret s' /\ P s'.
Proof.
  revert s; induction l as [|i l IH]; intros s H0 Hstep; simpl.
  - eauto.
  - destruct (Hstep i s) as (s1 & E & H1); [left|done|]. rewrite E; simpl.
    apply IH; [done|]. intros; apply Hstep; [by right|done].
Qed.

Lemma vget_ret {A} (l : list A) i a : l !! i = Some a -> vget l i = Ret a.
Proof. unfold vget. by intros ->. Qed.
Lemma vget_inv {A} (l : list A) i a : vget l i = Ret a -> l !! i = Some a.
Proof. unfold vget. destruct (l !! i); congruence. Qed.
Lemma vget_ret_lt {A} (l : list A) i : i < length l -> exists a, l !! i = Some a /\ vget l i = Ret a.
Proof. intros H. destruct (lookup_lt_is_Some_2 l i H) as [a E]. exists a. by rewrite (vget_ret _ _ _ E). Qed.
Lemma vset_ret {A} (l : list A) i x : i < length l -> vset l i x = Ret (<[i:=x]> l).
Proof. unfold vset. intros. by rewrite decide_True. Qed.
Lemma vset_inv {A} (l l' : list A) i x : vset l i x = Ret l' -> i < length l /\ l' = <[i:=x]> l.
Proof. unfold vset. case_decide; intros; simplify_eq; auto. Qed.

Lemma ci32_ret z : (int_min <= z <= int_max)%Z -> ci32 z = Ret z.
Proof. unfold ci32, in_i32, int_min, int_max. intros. rewrite !(proj2 (Z.leb_le _ _)); simpl; auto; lia. Qed.
Lemma ci32_inv z z' : ci32 z = Ret z' -> z' = z /\ (int_min <= z <= int_max)%Z.
Proof.
  unfold ci32, in_i32. destruct (_ && _) eqn:E; [|discriminate]. intros [= <-].
  apply andb_true_iff in E as [E1%Z.leb_le E2%Z.leb_le]. auto.
Qed.
Lemma ci64_ret z : (-9223372036854775808 <= z <= 9223372036854775807)%Z -> ci64 z = Ret z.
Proof. unfold ci64, in_i64. intros. rewrite !(proj2 (Z.leb_le _ _)); simpl; auto; lia. Qed.

Lemma wrap_s_id w z : (0 < w)%Z -> (- 2 ^ (w - 1) <= z < 2 ^ (w - 1))%Z -> wrap_s w z = z.
Proof.
  intros Hw Hz. unfold wrap_s.
  assert (2 ^ w = 2 * 2 ^ (w - 1))%Z as Ew.
  { rewrite <- Z.pow_succ_r by lia. f_equal. lia. }
  rewrite Z.mod_small; lia.
Qed.
