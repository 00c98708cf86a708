(** * The parser of JsonText.v is total, and accepts every text of JsonGrammar.v with the value it denotes. *)
From Verif Require Import Base Floats JsonText.
From Verif Require Import FloatBase JsonGrammar LexFacts DecFloat NumFacts ParseFacts.
From stdpp Require Import list.
From Coq Require Import ZArith Lia.
Local Open Scope Z_scope.

(** ** More turns change nothing *)
Ltac scans H := repeat match type of H with
  | context [match scan ?l with _ => _ end] => let t := fresh "t" in let l' := fresh "l" in destruct (scan l) as [t l'] eqn:?; destruct t; try done
  | context [let '(_, _) := scan ?l in _] => let t := fresh "t" in let l' := fresh "l" in destruct (scan l) as [t l'] eqn:?
  end.
Lemma sax_mono fuel : forall st f l x, sax_loop fuel st f l = x -> x <> OutOfFuel -> forall k, sax_loop (fuel + k) st f l = x.
Proof.
  induction fuel as [|fuel IH]; intros st f l x H N k; [by subst|].
  cbn [Nat.add]. destruct f as [t|v]; cbn [sax_loop] in H |- *.
  - destruct t; try done; try (by apply IH).
    + destruct (scan l) as [t1 l1]. destruct t1; try done; [by apply IH|].
      destruct (scan l1) as [t2 l2]. destruct t2; try done. destruct (scan l2) as [t3 l3]. by apply IH.
    + destruct (scan l) as [t1 l1]. destruct t1; by apply IH.
    + destruct (is_finite_sf x0); [by apply IH|done].
  - destruct st as [|[vs|ms key] st]; [done| |].
    + destruct (scan l) as [t1 l1]. destruct t1; try done; [by apply IH|]. destruct (scan l1) as [t2 l2]. by apply IH.
    + destruct (scan l) as [t1 l1]. destruct t1; try done; [by apply IH|].
      destruct (scan l1) as [t2 l2]. destruct t2; try done. destruct (scan l2) as [t3 l3]. destruct t3; try done. destruct (scan l3) as [t4 l4]. by apply IH.
Qed.

(** ** Every turn reads a character or completes a value *)
Definition weight (f : focus) : nat := match f with Tok TErr | Tok TEnd => 0 | Tok _ => 1 | Val _ => 0 end.
Lemma scan_weight l t r : scan l = (t, r) -> t <> TErr -> (2 * length r + weight (Tok t) <= 2 * length l)%nat.
Proof.
  intros E N. destruct (scan_len l t r E) as [->|[[-> L]|L]]; [done|cbn; lia|]. assert (weight (Tok t) <= 1)%nat by (by destruct t; cbn; lia). lia.
Qed.
Lemma scan_shorter l t r : scan l = (t, r) -> t <> TErr -> t <> TEnd -> (length r < length l)%nat.
Proof. intros E N M. by destruct (scan_len l t r E) as [->|[[-> L]|L]]. Qed.
Lemma sax_done_err fuel st l : (0 < fuel)%nat -> sax_loop fuel st (Tok TErr) l <> OutOfFuel.
Proof. by destruct fuel; [lia|]. Qed.
Lemma sax_total fuel : forall st f l, (2 * length l + weight f < fuel)%nat -> sax_loop fuel st f l <> OutOfFuel.
Proof.
  induction fuel as [|fuel IH]; intros st f l H; [lia|].
  assert (forall st' l' t r, scan l' = (t, r) -> (2 * length l' < fuel)%nat -> sax_loop fuel st' (Tok t) r <> OutOfFuel) as NX.
  { intros st' l' t r E L. destruct (is_err t) as [->|N]; [apply sax_done_err; lia|]. apply IH. pose proof (scan_weight _ _ _ E N). lia. }
  destruct f as [t|v]; cbn [sax_loop].
  - destruct t; try done; cbn [weight] in H; try (apply IH; cbn [weight]; lia).
    + destruct (scan l) as [t1 l1] eqn:E1. destruct t1; try done.
      * apply scan_shorter in E1; try done. apply IH. cbn [weight]. lia.
      * destruct (scan l1) as [t2 l2] eqn:E2. destruct t2; try done. destruct (scan l2) as [t3 l3] eqn:E3.
        apply scan_shorter in E1; try done. apply scan_shorter in E2; try done. eapply NX; [exact E3|lia].
    + destruct (scan l) as [t1 l1] eqn:E1. destruct (end_arr t1) as [->|[N D]].
      * apply scan_shorter in E1; try done. apply IH. cbn [weight]. lia.
      * rewrite D. eapply NX; [exact E1|lia].
    + destruct (is_finite_sf x); [|done]. apply IH. cbn [weight]. lia.
  - destruct st as [|[vs|ms key] st]; [done| |].
    + destruct (scan l) as [t1 l1] eqn:E1. destruct t1; try done.
      * apply scan_shorter in E1; try done. apply IH. cbn [weight] in *. lia.
      * destruct (scan l1) as [t2 l2] eqn:E2. apply scan_shorter in E1; try done. eapply NX; [exact E2|cbn [weight] in *; lia].
    + destruct (scan l) as [t1 l1] eqn:E1. destruct t1; try done.
      * apply scan_shorter in E1; try done. apply IH. cbn [weight] in *. lia.
      * destruct (scan l1) as [t2 l2] eqn:E2. destruct t2; try done. destruct (scan l2) as [t3 l3] eqn:E3. destruct t3; try done.
        destruct (scan l3) as [t4 l4] eqn:E4. apply scan_shorter in E1; try done. apply scan_shorter in E2; try done. apply scan_shorter in E3; try done.
        eapply NX; [exact E4|cbn [weight] in *; lia].
Qed.

(** ** Completeness *)
Scheme value_ind' := Minimality for value Sort Prop
  with elements_ind' := Minimality for array_elements Sort Prop
  with members_ind' := Minimality for object_members Sort Prop.
Combined Scheme value_mutind from value_ind', elements_ind', members_ind'.

Lemma ends_white w r : white w -> ends r -> ends (w ++ r).
Proof.
  intros Hw Hr. destruct Hw as [|c w Hc _]; [done|]. cbn. unfold digit. rewrite !elem_of_cons, elem_of_nil in *. lia.
Qed.
Lemma ends_punct c r : c ∈ [44; 93; 125; 0] -> ends (c :: r).
Proof. intros Hc. cbn. unfold digit. rewrite !elem_of_cons, elem_of_nil in *. lia. Qed.

Definition reads (u : list Z) (v : json) : Prop := forall rest, ends rest -> exists tok l0 n,
  scan (u ++ rest) = (tok, l0) /\ tok <> TEndArr /\ forall fuel st, sax_loop (n + fuel) st (Tok tok) l0 = sax_loop fuel st (Val v) rest.
Definition reads_elements (t : list Z) (vs : list json) : Prop := forall rest, exists tok l0 n,
  scan (t ++ 93 :: rest) = (tok, l0) /\ tok <> TEndArr /\
  forall fuel st acc, sax_loop (n + fuel) (FArr acc :: st) (Tok tok) l0 = sax_loop fuel st (Val (JArr (acc ++ vs))) rest.
Definition reads_members (t : list Z) (ms : list (string * json)) : Prop := forall rest, exists k l1 l2 tok l3 n,
  scan (t ++ 125 :: rest) = (TStr k, l1) /\ scan l1 = (TColon, l2) /\ scan l2 = (tok, l3) /\
  forall fuel st acc, sax_loop (n + fuel) (FObj acc (str k) :: st) (Tok tok) l3
    = sax_loop fuel st (Val (JObj (fold_left (fun l kv => obj_insert kv.1 kv.2 l) ms acc))) rest.

Ltac norm := repeat (rewrite <- ?app_assoc; cbn [app]).
Lemma reads_all :
  (forall u v, value u v -> reads u v) /\ (forall t vs, array_elements t vs -> reads_elements t vs) /\ (forall t ms, object_members t ms -> reads_members t ms).
Proof.
  apply value_mutind.
  - intros rest _. rewrite scan_lit by (rewrite !elem_of_cons; tauto). by eexists _, _, 1%nat.
  - intros rest _. rewrite scan_lit by (rewrite !elem_of_cons; tauto). by eexists _, _, 1%nat.
  - intros rest _. rewrite scan_lit by (rewrite !elem_of_cons; tauto). by eexists _, _, 1%nat.
  - intros t j Hn rest Hr. destruct (scan_num t j rest Hn Hr) as (tok & E & T & F). exists tok, rest, 1%nat. split; [done|].
    destruct j; try done; injection T as <-; (split; [done|]); intros fuel st; cbn [Nat.add sax_loop]; try done. by rewrite (F _ eq_refl).
  - intros t b Hq rest _. rewrite (scan_quoted t b rest Hq). by eexists _, _, 1%nat.
  - intros w Hw rest _. norm. rewrite scan_punct by (rewrite !elem_of_cons; tauto). eexists _, _, 1%nat. split; [done|]. split; [done|].
    intros fuel st. cbn [Nat.add sax_loop]. rewrite scan_white by done. by rewrite scan_punct by (rewrite !elem_of_cons; tauto).
  - intros t vs _ IH rest _. norm. rewrite scan_punct by (rewrite !elem_of_cons; tauto). destruct (IH rest) as (tok & l0 & n & E & N & L).
    eexists _, _, (S n). split; [done|]. split; [done|].
    intros fuel st. cbn [Nat.add sax_loop]. cbn [Z.eqb Pos.eqb]. rewrite E. destruct (end_arr tok) as [|[_ D]]; [done|]. rewrite D. by rewrite L.
  - intros w Hw rest _. norm. rewrite scan_punct by (rewrite !elem_of_cons; tauto). eexists _, _, 1%nat. split; [done|]. split; [done|].
    intros fuel st. cbn [Nat.add sax_loop]. rewrite scan_white by done. by rewrite scan_punct by (rewrite !elem_of_cons; tauto).
  - intros t ms _ IH rest _. norm. rewrite scan_punct by (rewrite !elem_of_cons; tauto).
    destruct (IH rest) as (k & l1 & l2 & tok & l3 & n & E1 & E2 & E3 & L).
    eexists _, _, (S n). split; [done|]. split; [done|].
    intros fuel st. cbn [Nat.add sax_loop]. cbn [Z.eqb Pos.eqb]. rewrite E1, E2, E3. unfold jobject. rewrite <- (L fuel st). done.
  - intros w1 t v w2 Hw1 _ IH Hw2 rest. norm. rewrite scan_white by done.
    assert (ends (w2 ++ 93 :: rest)) as He by (apply ends_white; [done|]; apply ends_punct; rewrite !elem_of_cons; tauto).
    destruct (IH _ He) as (tok & l0 & n & E & N & L). exists tok, l0, (n + 1)%nat. split; [done|]. split; [done|].
    intros fuel st acc. rewrite <- Nat.add_assoc, L. cbn [Nat.add sax_loop]. rewrite scan_white by done. by rewrite scan_punct by (rewrite !elem_of_cons; tauto).
  - intros w1 t v w2 t' vs Hw1 _ IH Hw2 _ IH' rest. norm. rewrite scan_white by done.
    assert (ends (w2 ++ 44 :: t' ++ 93 :: rest)) as He by (apply ends_white; [done|]; apply ends_punct; rewrite !elem_of_cons; tauto).
    destruct (IH _ He) as (tok & l0 & n & E & N & L). destruct (IH' rest) as (tok' & l0' & n' & E' & N' & L').
    exists tok, l0, (n + S n')%nat. split; [done|]. split; [done|].
    intros fuel st acc. rewrite <- Nat.add_assoc, L. cbn [Nat.add sax_loop]. rewrite scan_white by done. rewrite scan_punct by (rewrite !elem_of_cons; tauto).
    cbn [Z.eqb Pos.eqb]. rewrite E'. rewrite L'. by rewrite <- app_assoc.
  - intros w1 kt k w2 w3 t v w4 Hw1 Hk Hw2 Hw3 _ IH Hw4 rest.
    assert (ends (w4 ++ 125 :: rest)) as He by (apply ends_white; [done|]; apply ends_punct; rewrite !elem_of_cons; tauto).
    destruct (IH _ He) as (tok & l0 & n & E & N & L).
    eexists k, _, _, tok, l0, (n + 1)%nat. split; [norm; rewrite scan_white by done; by rewrite (scan_quoted kt k _ Hk)|].
    split; [rewrite scan_white by done; by rewrite scan_punct by (rewrite !elem_of_cons; tauto)|].
    split; [rewrite scan_white by done; exact E|].
    intros fuel st acc. rewrite <- Nat.add_assoc, L. cbn [Nat.add sax_loop]. rewrite scan_white by done. by rewrite scan_punct by (rewrite !elem_of_cons; tauto).
  - intros w1 kt k w2 w3 t v w4 t' ms Hw1 Hk Hw2 Hw3 _ IH Hw4 _ IH' rest.
    assert (ends (w4 ++ 44 :: t' ++ 125 :: rest)) as He by (apply ends_white; [done|]; apply ends_punct; rewrite !elem_of_cons; tauto).
    destruct (IH _ He) as (tok & l0 & n & E & N & L).
    destruct (IH' rest) as (k' & l1' & l2' & tok' & l3' & n' & E1 & E2 & E3 & L').
    eexists k, _, _, tok, l0, (n + S n')%nat. split; [norm; rewrite scan_white by done; by rewrite (scan_quoted kt k _ Hk)|].
    split; [rewrite scan_white by done; by rewrite scan_punct by (rewrite !elem_of_cons; tauto)|].
    split; [rewrite scan_white by done; exact E|].
    intros fuel st acc. rewrite <- Nat.add_assoc, L. cbn [Nat.add sax_loop]. rewrite scan_white by done. rewrite scan_punct by (rewrite !elem_of_cons; tauto).
    cbn [Z.eqb Pos.eqb]. rewrite E1, E2, E3. exact (L' fuel st _).
Qed.

(** ** json::parse *)
Lemma value_head u v : value u v -> exists c l, u = c :: l /\ c <> 239 /\ c <> 0.
Proof.
  intros H. inversion H as [| | |? ? Hn|? ? Hq| | | |]; subst; try (eexists _, _; split; [done|vm_compute; split; congruence]).
  - inversion Hn as [? Hi|? Hi|neg i ? ? ? ? ? Hi]; subst; [| |destruct neg]; try (eexists _, _; split; [done|lia]);
      destruct (integer_digits _ Hi) as (_ & _ & d & l & -> & Hd); unfold digit in Hd; (eexists _, _; split; [done|lia]).
  - destruct Hq as (? & -> & _). eexists _, _; split; [done|lia].
Qed.
Lemma skip_bom_none w u v r : white w -> value u v -> skip_bom (w ++ u ++ r) = Some (w ++ u ++ r).
Proof.
  intros Hw Hv. destruct Hw as [|c w Hc _].
  - destruct (value_head u v Hv) as (c & l & -> & Hc & _). cbn. by apply Z.eqb_neq in Hc as ->.
  - cbn. destruct (Z.eqb_spec c 239) as [->|]; [|done]. by rewrite !elem_of_cons, elem_of_nil in Hc; lia.
Qed.
Lemma skip_bom_sound l l' : skip_bom l = Some l' -> exists bom, l = bom ++ l' /\ (bom = [] \/ bom = [239; 187; 191]).
Proof.
  destruct l as [|c r]; cbn; [intros [= <-]; by exists []; auto|].
  destruct (Z.eqb_spec c 239) as [->|]; [|intros [= <-]; by exists []; auto].
  destruct r as [|b1 [|b2 r]]; try done. destruct ((b1 =? 187) && (b2 =? 191)) eqn:E; [|done].
  apply andb_prop in E as [->%Z.eqb_eq ->%Z.eqb_eq]. intros [= <-]. exists [239; 187; 191]. auto.
Qed.

Lemma parse_total t : exists o, parse t = Ret o.
Proof.
  unfold parse. destruct (skip_bom t) as [l|] eqn:E; [|by eexists].
  apply skip_bom_sound in E as (bom & E & _).
  assert (length l <= length t)%nat as HL. { rewrite E, app_length. lia. }
  destruct (scan l) as [tok r] eqn:Es.
  destruct (sax_loop (2 * length t + 2) [] (Tok tok) r) as [x| | |] eqn:L; cbn [obind]; [by eexists| | |].
  - exfalso. revert L. generalize (2 * length t + 2)%nat (@nil frame) (Tok tok) r. clear. intros fuel.
    induction fuel as [|fuel IH]; intros st f l H; [done|]. destruct f as [t|v]; cbn [sax_loop] in H.
    + destruct t; try done; try (by eapply IH).
      * destruct (scan l) as [t1 l1]. destruct t1; try done; [by eapply IH|].
        destruct (scan l1) as [t2 l2]. destruct t2; try done. destruct (scan l2) as [t3 l3]. by eapply IH.
      * destruct (scan l) as [t1 l1]. destruct t1; by eapply IH.
      * destruct (is_finite_sf x); [by eapply IH|done].
    + destruct st as [|[vs|ms key] st]; [done| |].
      * destruct (scan l) as [t1 l1]. destruct t1; try done; [by eapply IH|]. destruct (scan l1) as [t2 l2]. by eapply IH.
      * destruct (scan l) as [t1 l1]. destruct t1; try done; [by eapply IH|].
        destruct (scan l1) as [t2 l2]. destruct t2; try done. destruct (scan l2) as [t3 l3]. destruct t3; try done. destruct (scan l3) as [t4 l4]. by eapply IH.
  - exfalso. revert L. generalize (2 * length t + 2)%nat (@nil frame) (Tok tok) r. clear. intros fuel.
    induction fuel as [|fuel IH]; intros st f l H; [done|]. destruct f as [t|v]; cbn [sax_loop] in H.
    + destruct t; try done; try (by eapply IH).
      * destruct (scan l) as [t1 l1]. destruct t1; try done; [by eapply IH|].
        destruct (scan l1) as [t2 l2]. destruct t2; try done. destruct (scan l2) as [t3 l3]. by eapply IH.
      * destruct (scan l) as [t1 l1]. destruct t1; by eapply IH.
      * destruct (is_finite_sf x); [by eapply IH|done].
    + destruct st as [|[vs|ms key] st]; [done| |].
      * destruct (scan l) as [t1 l1]. destruct t1; try done; [by eapply IH|]. destruct (scan l1) as [t2 l2]. by eapply IH.
      * destruct (scan l) as [t1 l1]. destruct t1; try done; [by eapply IH|].
        destruct (scan l1) as [t2 l2]. destruct t2; try done. destruct (scan l2) as [t3 l3]. destruct t3; try done. destruct (scan l3) as [t4 l4]. by eapply IH.
  - destruct (is_err tok) as [->|N].
    + destruct (sax_err (2 * length t + 2) [] r) as [E'|E']; [|congruence]. by rewrite Nat.add_comm in E'.
    + apply sax_total in L; [done|]. pose proof (scan_weight _ _ _ Es N). lia.
Qed.

(** what may follow the text: nothing, or a NUL byte and anything *)
Definition after_end (r : list Z) : Prop := r = [] \/ exists junk, r = 0 :: junk.
Lemma parse_spec t j : parse t = Ret (Some j) <-> exists t0 r, t = t0 ++ r /\ json_text t0 j /\ after_end r.
Proof.
  split.
  - unfold parse. destruct (skip_bom t) as [l|] eqn:E; [|done]. apply skip_bom_sound in E as (bom & -> & Hb).
    destruct (scan l) as [tok r] eqn:Es.
    destruct (sax_loop _ [] (Tok tok) r) as [x| | |] eqn:L; cbn [obind]; try done. destruct x as [[v l']|]; [|done].
    destruct (scan l') as [t' r'] eqn:Et. destruct t'; try done. intros [= ->].
    destruct (scan_cases _ _ _ Et) as [|[[_ (w2 & -> & Hw2 & Hr)]|(w & u & _ & _ & _ & [])]]; [done|].
    assert (exists w u, l = w ++ u ++ w2 ++ r' /\ white w /\ value u j) as (w & u & -> & Hw & Hu).
    { destruct (inv_next [] [] l tok r) as [->|(p' & Ep & Hi)]; [by constructor; constructor|done| |].
      - destruct (sax_err (2 * length (bom ++ l) + 2) [] r) as [E'|E']; congruence.
      - cbn [app] in Ep. subst l. eapply sax_sound; [exact Hi|exact L]. }
    exists (bom ++ w ++ u ++ w2), r'. split; [by norm|]. split; [|done]. by exists bom, w, u, w2.
  - intros (t0 & r & -> & (bom & w1 & u & w2 & -> & Hb & Hw1 & Hu & Hw2) & Hr).
    destruct (parse_total ((bom ++ w1 ++ u ++ w2) ++ r)) as [o Ho]. rewrite Ho. do 2 f_equal. revert Ho.
    unfold parse. assert (skip_bom ((bom ++ w1 ++ u ++ w2) ++ r) = Some (w1 ++ u ++ w2 ++ r)) as ->.
    { norm. destruct Hb as [->| ->]; [|done]. cbn [app]. by eapply skip_bom_none. }
    assert (ends (w2 ++ r)) as He.
    { apply ends_white; [done|]. destruct Hr as [->|[junk ->]]; [done|]. apply ends_punct. rewrite !elem_of_cons; tauto. }
    assert (scan (w2 ++ r) = (TEnd, r)) as Es.
    { rewrite scan_white by done. by destruct Hr as [->|[junk ->]]. }
    destruct reads_all as (RV & _ & _). destruct (RV u j Hu _ He) as (tok & l0 & n & E & _ & L).
    rewrite scan_white by done. rewrite E.
    set (F := (2 * length ((bom ++ w1 ++ u ++ w2) ++ r) + 2)%nat). intros Ho.
    assert (sax_loop F [] (Tok tok) l0 <> OutOfFuel) as NF by (intros E'; by rewrite E' in Ho).
    pose proof (sax_mono F [] (Tok tok) l0 _ eq_refl NF (n + 1)) as M.
    rewrite Nat.add_comm, <- Nat.add_assoc, L in M. cbn [Nat.add sax_loop] in M. rewrite <- M in Ho. cbn [obind] in Ho. rewrite Es in Ho. by injection Ho as <-.
Qed.
