(** * Facts about the cache of random floats (C65). *)
From Verif Require Import FrandCache.
From stdpp Require Import list.
Local Open Scope Z_scope.

(** a program over one cache *)
Inductive fc_op := FRefill | FNext.
Section Facts.
  Context (R : rnd).
  Fixpoint fc_run (os : list fc_op) (c : frand_cache) (f : eF R) : outcome (list float32 * frand_cache * eF R) :=
    match os with
    | [] => Ret ([], c, f)
    | FRefill :: os => let* '(c, f) := fc_refill R c f in fc_run os c f
    | FNext :: os => let* '(x, c) := fc_next c in let* '(xs, c, f) := fc_run os c f in Ret (x :: xs, c, f)
    end.
  (** at most [n] reads between refills, [k] reads since the last refill *)
  Fixpoint within (n k : nat) (os : list fc_op) : Prop :=
    match os with
    | [] => True
    | FRefill :: os => within n 0 os
    | FNext :: os => (k < n)%nat /\ within n (S k) os
    end.
  (** the first [n] draws from [f], and the generator after them *)
  Fixpoint f_draws (n : nat) (f : eF R) : list float32 := match n with O => [] | S n => (f_next R f).1 :: f_draws n (f_next R f).2 end.
  Fixpoint f_skip (n : nat) (f : eF R) : eF R := match n with O => f | S n => f_skip n (f_next R f).2 end.
  Lemma f_draws_app a b f : f_draws (a + b) f = f_draws a f ++ f_draws b (f_skip a f).
  Proof. revert f. induction a as [|a IH]; intros f; [done|]. cbn. by rewrite IH. Qed.
  Lemma f_skip_add a b f : f_skip (a + b) f = f_skip b (f_skip a f).
  Proof. revert f. induction a as [|a IH]; intros f; [done|]. cbn. by rewrite IH. Qed.
  Lemma f_draws_length n f : length (f_draws n f) = n.
  Proof. revert f. induction n as [|n IH]; intros f; [done|]. cbn. by rewrite IH. Qed.

  Lemma fc_fill_spec k : forall it v f, (it + k <= length v)%nat ->
    fc_fill R k it v f = Ret (take it v ++ f_draws k f ++ drop (it + k) v, f_skip k f).
  Proof.
    induction k as [|k IH]; intros it v f H; cbn [fc_fill f_draws f_skip].
    - rewrite Nat.add_0_r. cbn [app]. by rewrite take_drop.
    - destruct (f_next R f) as [x f1]. cbn [fst snd]. unfold vset. rewrite decide_True by lia. cbn [obind]. rewrite IH by (rewrite insert_length; lia).
      rewrite (take_S_r _ _ x) by (apply list_lookup_insert; lia). rewrite take_insert by lia. rewrite drop_insert_gt by lia.
      rewrite <- app_assoc. cbn [app]. by replace (S it + k)%nat with (it + S k)%nat by lia.
  Qed.
  Lemma refill_spec p v f : (p <= length v)%nat -> Z.of_nat (length v) < 4294967296 ->
    fc_refill R (FC (Z.of_nat p) v) f = Ret (FC 0 (f_draws p f ++ drop p v), f_skip p f).
  Proof.
    intros Hp Hl. unfold fc_refill. cbn [fc_pos fc_vals]. unfold u32. rewrite Z.mod_small by lia. rewrite Z.min_l by lia. rewrite Nat2Z.id.
    rewrite fc_fill_spec by lia. done.
  Qed.
  (** every value drawn is either delivered once or still waiting *)
  Lemma fc_run_spec n os : Z.of_nat n + 1 < 4294967296 -> forall p v f, length v = n -> (p <= n)%nat -> within n p os ->
    exists xs p' v' d, fc_run os (FC (Z.of_nat p) v) f = Ret (xs, FC (Z.of_nat p') v', f_skip d f) /\ length v' = n /\ (p' <= n)%nat /\
      xs ++ drop p' v' ≡ₚ drop p v ++ f_draws d f.
  Proof.
    intros Hn. induction os as [|o os IH]; intros p v f El Hp Hw.
    { exists [], p, v, 0%nat. cbn. rewrite app_nil_r. done. }
    destruct o; cbn [fc_run within] in *.
    - rewrite refill_spec by lia. cbn [obind]. destruct (IH 0%nat (f_draws p f ++ drop p v) (f_skip p f)) as (xs & p' & v' & d & E & El' & Hp' & P).
      { rewrite app_length, f_draws_length, drop_length. lia. } { lia. } { done. }
      change (Z.of_nat 0) with 0 in E. rewrite E. exists xs, p', v', (p + d)%nat. rewrite f_skip_add, f_draws_app. split_and!; [done|done|done|].
      rewrite P, drop_0. rewrite (app_assoc _ (f_draws p f)). by rewrite (Permutation_app_comm (f_draws p f)).
    - destruct Hw as [Hlt Hw]. unfold fc_next. cbn [fc_pos fc_vals]. rewrite Nat2Z.id. unfold vget.
      destruct (lookup_lt_is_Some_2 v p ltac:(lia)) as [x Ex]. rewrite Ex. cbn [obind].
      replace (u32 (Z.of_nat p + 1)) with (Z.of_nat (S p)) by (unfold u32; rewrite Z.mod_small; lia).
      destruct (IH (S p) v f El ltac:(lia) Hw) as (xs & p' & v' & d & E & El' & Hp' & P). rewrite E. cbn [obind].
      exists (x :: xs), p', v', d. split_and!; [done|done|done|]. rewrite (drop_S _ _ _ Ex). cbn [app]. by rewrite P.
  Qed.
  Lemma fc_new_run n os f : Z.of_nat n + 1 < 4294967296 -> within n n os ->
    exists xs c d, fc_run os (fc_new n) f = Ret (xs, c, f_skip d f) /\ xs ++ drop (Z.to_nat (fc_pos c)) (fc_vals c) ≡ₚ f_draws d f.
  Proof.
    intros Hn Hw. destruct (fc_run_spec n os Hn n (replicate n (S754_zero false)) f) as (xs & p' & v' & d & E & _ & _ & P); [by rewrite replicate_length|lia|done|].
    rewrite (drop_ge (replicate n (S754_zero false))) in P by (by rewrite replicate_length). exists xs, (FC (Z.of_nat p') v'), d. cbn [fc_pos fc_vals]. rewrite Nat2Z.id. done.
  Qed.
  (** the first read too many *)
  Lemma fc_overrun_at n os2 os1 : Z.of_nat n + 1 < 4294967296 -> forall p v f, length v = n -> (p <= n)%nat -> within n p os1 -> ~ within n p (os1 ++ [FNext]) ->
    fc_run (os1 ++ FNext :: os2) (FC (Z.of_nat p) v) f = UB OutOfBounds.
  Proof.
    intros Hn. induction os1 as [|o os1 IH]; intros p v f El Hp Hw Hnw; cbn [app fc_run within] in *.
    - unfold fc_next. cbn [fc_pos fc_vals]. rewrite Nat2Z.id. unfold vget. rewrite lookup_ge_None_2; [done|]. destruct (Nat.lt_ge_cases p n); [exfalso; tauto|lia].
    - destruct o.
      + rewrite refill_spec by lia. cbn [obind]. change 0 with (Z.of_nat 0). apply IH; [rewrite app_length, f_draws_length, drop_length; lia|lia|done|done].
      + destruct Hw as [Hlt Hw]. unfold fc_next. cbn [fc_pos fc_vals]. rewrite Nat2Z.id. unfold vget.
        destruct (lookup_lt_is_Some_2 v p ltac:(lia)) as [x Ex]. rewrite Ex. cbn [obind].
        replace (u32 (Z.of_nat p + 1)) with (Z.of_nat (S p)) by (unfold u32; rewrite Z.mod_small; lia).
        rewrite IH; [done|done|lia|done|]. intros Q. apply Hnw. done.
  Qed.
  Lemma fc_overrun n os1 os2 f : Z.of_nat n + 1 < 4294967296 -> within n n os1 -> ~ within n n (os1 ++ [FNext]) -> fc_run (os1 ++ FNext :: os2) (fc_new n) f = UB OutOfBounds.
  Proof. intros Hn Hw Hnw. unfold fc_new. apply (fc_overrun_at n); [done|apply replicate_length|lia|done|done].
  Qed.
End Facts.
