(** * Weakest preconditions for [outcome].

    [wp U V o Q]: if [o] returns, the result satisfies [Q]; if it is undefined behaviour or an exception, [U] holds;
    if the fuel of an unbounded loop is exhausted, [V] holds.
    [U := False] gives absence of undefined behaviour, [U := True] partial correctness; likewise [V] for termination. *)
From Verif Require Export Base.

Definition wp (U V : Prop) {A} (o : outcome A) (Q : A -> Prop) : Prop :=
  match o with Ret a => Q a | Throw _ | UB _ => U | OutOfFuel => V end.

Section Wp.
  Context {U V : Prop}.

  Lemma wp_ret {A} (a : A) (Q : A -> Prop) : Q a -> wp U V (Ret a) Q.
  Proof. done. Qed.
  Lemma wp_bind {A B} (o : outcome A) (f : A -> outcome B) Q :
    wp U V o (fun a => wp U V (f a) Q) -> wp U V (obind o f) Q.
  Proof. destruct o; done. Qed.
  Lemma wp_mono {A} (o : outcome A) (Q Q' : A -> Prop) : wp U V o Q -> (forall a, Q a -> Q' a) -> wp U V o Q'.
  Proof. destruct o; simpl; auto. Qed.
  Lemma wp_mono_eq {A} (o : outcome A) (Q Q' : A -> Prop) :
    wp U V o Q -> (forall a, o = Ret a -> Q a -> Q' a) -> wp U V o Q'.
  Proof. destruct o; simpl; auto. Qed.
  Lemma wp_and {A} (o : outcome A) (Q Q' : A -> Prop) :
    wp U V o Q -> wp U V o Q' -> wp U V o (fun a => Q a /\ Q' a).
  Proof. destruct o; simpl; auto. Qed.
  Lemma wp_eq {A} (o : outcome A) a (Q : A -> Prop) : o = Ret a -> Q a -> wp U V o Q.
  Proof. by intros ->. Qed.
  Lemma wp_ex {A} (o : outcome A) (P Q : A -> Prop) : (exists a, o = Ret a /\ P a) -> (forall a, P a -> Q a) -> wp U V o Q.
  Proof. intros (a & -> & H) HQ. simpl. auto. Qed.

  Lemma wp_ofold {I St} (P : St -> Prop) (l : list I) (s : St) body :
    P s -> (forall i s1, i ∈ l -> P s1 -> wp U V (body i s1) P) -> wp U V (ofold l s body) P.
  Proof.
    revert s; induction l as [|i l IH]; intros s H0 Hstep; simpl; [done|].
    apply wp_bind. eapply wp_mono; [apply Hstep; [left|done]|].
    intros s' Hs'. apply IH; [done|]. intros; apply Hstep; [by right|done].
  Qed.
  (** the invariant may mention the iterations done so far *)
  Lemma wp_ofold_ix {I St} (P : list I -> St -> Prop) (l : list I) (s : St) body :
    P [] s ->
    (forall pre i post s1, l = pre ++ i :: post -> P pre s1 -> wp U V (body i s1) (P (pre ++ [i]))) ->
    wp U V (ofold l s body) (P l).
  Proof.
    intros H0 Hstep.
    cut (forall pre post s1, l = pre ++ post -> P pre s1 -> wp U V (ofold post s1 body) (P l)).
    { intros H. by apply (H [] l). }
    intros pre post; revert pre; induction post as [|i post IH]; intros pre s1 E HP; simpl.
    - rewrite E, app_nil_r. done.
    - apply wp_bind. eapply wp_mono; [by eapply Hstep|].
      intros s2 Hs2. apply (IH (pre ++ [i])); [|done]. by rewrite <- app_assoc.
  Qed.
  Lemma wp_ofor {St} (P : nat -> St -> Prop) b n (s : St) body :
    P b s ->
    (forall i s', b <= i < b + n -> P i s' -> wp U V (body i s') (P (S i))) ->
    wp U V (ofor b n s body) (P (b + n)).
  Proof.
    unfold ofor. revert b s; induction n as [|n IH]; intros b s H0 Hstep; simpl.
    - by rewrite Nat.add_0_r.
    - apply wp_bind. eapply wp_mono; [apply Hstep; [lia|done]|].
      intros s' Hs'. replace (b + S n) with (S b + n) by lia.
      apply IH; [done|]. intros; apply Hstep; [lia|done].
  Qed.
  Lemma wp_vget {A} (l : list A) i (Q : A -> Prop) : (forall a, l !! i = Some a -> Q a) -> (i < length l \/ U) -> wp U V (vget l i) Q.
  Proof.
    intros HQ Hi. unfold vget. destruct (l !! i) eqn:E; simpl; [auto|].
    destruct Hi as [Hi|]; [|done]. apply lookup_ge_None in E. lia.
  Qed.
  Lemma wp_vset {A} (l : list A) i x (Q : list A -> Prop) :
    (i < length l -> Q (<[i:=x]> l)) -> (i < length l \/ U) -> wp U V (vset l i x) Q.
  Proof. intros HQ Hi. unfold vset. case_decide; simpl; [auto|]. destruct Hi; [lia|done]. Qed.
  Lemma wp_ci32 z (Q : Z -> Prop) : ((int_min <= z <= int_max)%Z -> Q z) -> ((int_min <= z <= int_max)%Z \/ U) -> wp U V (ci32 z) Q.
  Proof.
    intros HQ Hz. unfold ci32. destruct (in_i32 z) eqn:E; simpl.
    - apply HQ. unfold in_i32 in E. apply andb_true_iff in E as [E1%Z.leb_le E2%Z.leb_le]. done.
    - destruct Hz as [Hz|]; [|done]. exfalso. unfold in_i32 in E.
      apply andb_false_iff in E as [E%Z.leb_gt|E%Z.leb_gt]; lia.
  Qed.
  Lemma wp_ci64 z (Q : Z -> Prop) :
    ((-9223372036854775808 <= z <= 9223372036854775807)%Z -> Q z) ->
    ((-9223372036854775808 <= z <= 9223372036854775807)%Z \/ U) -> wp U V (ci64 z) Q.
  Proof.
    intros HQ Hz. unfold ci64. destruct (in_i64 z) eqn:E; simpl.
    - apply HQ. unfold in_i64 in E. apply andb_true_iff in E as [E1%Z.leb_le E2%Z.leb_le]. done.
    - destruct Hz as [Hz|]; [|done]. exfalso. unfold in_i64 in E.
      apply andb_false_iff in E as [E%Z.leb_gt|E%Z.leb_gt]; lia.
  Qed.
End Wp.

Lemma wp_partial {A} (o : outcome A) (Q : A -> Prop) : wp True True o Q <-> (forall a, o = Ret a -> Q a).
Proof. destruct o; simpl; split; intros; simplify_eq; auto. Qed.
Lemma wp_total {A} (o : outcome A) (Q : A -> Prop) : wp False False o Q <-> (exists a, o = Ret a /\ Q a).
Proof.
  destruct o; simpl; split; intros H; try done.
  - eauto.
  - by destruct H as (? & [= ->] & ?).
  - by destruct H as (? & ? & ?).
  - by destruct H as (? & ? & ?).
  - by destruct H as (? & ? & ?).
Qed.
Lemma wp_safe {A} (o : outcome A) (Q : A -> Prop) : wp False True o Q <-> (o = OutOfFuel \/ exists a, o = Ret a /\ Q a).
Proof.
  destruct o; simpl; split; intros H; eauto; try done.
  - destruct H as [|(? & [= ->] & ?)]; done.
  - destruct H as [|(? & ? & ?)]; done.
  - destruct H as [|(? & ? & ?)]; done.
Qed.

(** ** Lockstep of two computations: both return related values, or both fail in the same way *)
Definition orel {A B} (P : A -> B -> Prop) (o1 : outcome A) (o2 : outcome B) : Prop :=
  match o1, o2 with
  | Ret a, Ret b => P a b
  | Throw e1, Throw e2 => e1 = e2
  | UB k1, UB k2 => k1 = k2
  | OutOfFuel, OutOfFuel => True
  | _, _ => False
  end.
Lemma orel_bind {A B A' B'} (P : A -> B -> Prop) (Q : A' -> B' -> Prop) o1 o2 f1 f2 :
  orel P o1 o2 -> (forall a b, o1 = Ret a -> o2 = Ret b -> P a b -> orel Q (f1 a) (f2 b)) ->
  orel Q (obind o1 f1) (obind o2 f2).
Proof. destruct o1, o2; simpl; try done; intros; subst; auto. Qed.
Lemma orel_eq {A} (o1 o2 : outcome A) : o1 = o2 -> orel eq o1 o2.
Proof. intros ->. destruct o2; done. Qed.
Lemma orel_eq_inv {A} (o1 o2 : outcome A) : orel eq o1 o2 -> o1 = o2.
Proof. destruct o1, o2; simpl; intros; try done; by subst. Qed.
Lemma orel_same {A A' B'} (Q : A' -> B' -> Prop) (o : outcome A) f1 f2 :
  (forall a, o = Ret a -> orel Q (f1 a) (f2 a)) -> orel Q (obind o f1) (obind o f2).
Proof. intros H. eapply orel_bind; [by apply orel_eq|]. intros a ? E _ <-. by apply H. Qed.
Lemma orel_mono {A B} (P Q : A -> B -> Prop) o1 o2 : orel P o1 o2 -> (forall a b, P a b -> Q a b) -> orel Q o1 o2.
Proof. destruct o1, o2; simpl; auto. Qed.
Lemma orel_mono_eq {A B} (P Q : A -> B -> Prop) o1 o2 :
  orel P o1 o2 -> (forall a b, o1 = Ret a -> o2 = Ret b -> P a b -> Q a b) -> orel Q o1 o2.
Proof. destruct o1, o2; simpl; auto. Qed.
Lemma orel_ret {A B} (P : A -> B -> Prop) o1 o2 a b : o1 = Ret a -> o2 = Ret b -> P a b -> orel P o1 o2.
Proof. by intros -> ->. Qed.
Lemma orel_ofold {I St1 St2} (P : St1 -> St2 -> Prop) (l : list I) s1 s2 b1 b2 :
  P s1 s2 -> (forall i t1 t2, i ∈ l -> P t1 t2 -> orel P (b1 i t1) (b2 i t2)) ->
  orel P (ofold l s1 b1) (ofold l s2 b2).
Proof.
  revert s1 s2; induction l as [|i l IH]; intros s1 s2 H0 Hs; simpl; [done|].
  eapply orel_bind; [apply Hs; [left|done]|]. intros t1 t2 _ _ Ht. apply IH; [done|].
  intros; apply Hs; [by right|done].
Qed.
Lemma orel_wp {A B} (P : A -> B -> Prop) (Q : A -> Prop) o1 o2 :
  orel P o1 o2 -> wp True True o1 Q -> orel (fun a b => P a b /\ Q a) o1 o2.
Proof. destruct o1, o2; simpl; auto. Qed.
