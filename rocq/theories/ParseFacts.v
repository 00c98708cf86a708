(** * The parser of JsonText.v accepts exactly the texts of JsonGrammar.v. *)
From Verif Require Import Base Floats JsonText.
From Verif Require Import FloatBase JsonGrammar LexFacts DecFloat NumFacts.
From stdpp Require Import list.
From Coq Require Import ZArith Lia.
Local Open Scope Z_scope.

(** ** Tokens *)
Definition tok_text (t : token) (u : list Z) : Prop :=
  match t with
  | TBeginObj => u = [123] | TEndObj => u = [125] | TBeginArr => u = [91] | TEndArr => u = [93] | TColon => u = [58] | TComma => u = [44]
  | TTrue => u = text "true" | TFalse => u = text "false" | TNull => u = text "null"
  | TStr s => quoted u s
  | TUns z => number u (JUns z) | TInt z => number u (JInt z) | TFlt x => is_finite_sf x = true -> number u (JFlt x)
  | TEnd | TErr => False
  end.
Lemma is_err t : t = TErr \/ t <> TErr.
Proof. destruct t; auto. Qed.
Lemma scan_cases l t r : scan l = (t, r) ->
  t = TErr \/ (t = TEnd /\ exists w, l = w ++ r /\ white w /\ (r = [] \/ exists k, r = 0 :: k))
  \/ exists w u, l = w ++ u ++ r /\ white w /\ u <> [] /\ tok_text t u.
Proof.
  unfold scan. destruct (skip_ws_sound l) as (w & E & Hw). destruct (skip_ws l) as [|c k].
  { intros [= <- <-]. right. left. split; [done|]. exists w. auto. }
  assert (forall t' u, (t', r) = (t', r) -> c :: k = u ++ r -> u <> [] -> tok_text t' u -> exists w u, l = w ++ u ++ r /\ white w /\ u <> [] /\ tok_text t' u) as D.
  { intros t' u _ Eu Nu T. exists w, u. by rewrite <- Eu. }
  repeat match goal with |- (if ?a =? ?b then _ else _) = _ -> _ => destruct (Z.eqb_spec a b) as [->|] end;
    try (intros [= <- <-]; right; right; by eapply (D _ [_])).
  - intros H. destruct (is_err t) as [|N]; [by left|]. apply scan_literal_sound in H as [-> ->]; [|done]. right; right. by eapply (D _ (text "true")).
  - intros H. destruct (is_err t) as [|N]; [by left|]. apply scan_literal_sound in H as [-> ->]; [|done]. right; right. by eapply (D _ (text "false")).
  - intros H. destruct (is_err t) as [|N]; [by left|]. apply scan_literal_sound in H as [-> ->]; [|done]. right; right. by eapply (D _ (text "null")).
  - destruct (scan_string k []) as [[s r']|] eqn:Es; [|by intros [= <- <-]; left]. intros [= <- <-]. right; right.
    eapply scan_string_sound in Es as (u & bs & -> & Hu & ->); [|done]. eapply (D _ (34 :: u ++ [34])); try done.
    + cbn. by rewrite <- app_assoc.
    + by exists u.
  - destruct ((c =? 45) || is_digit c) eqn:En.
    + intros H. assert (c = 45 \/ digit c) as Hc.
      { apply orb_prop in En as [->%Z.eqb_eq|Hd%is_digit_spec]; auto. }
      destruct (is_err t) as [|N]; [by left|]. destruct (scan_number_sound c k t r Hc H N) as (u & Eu & Nu & T). right; right.
      exists w, u. rewrite <- Eu. split; [done|]. split; [done|]. split; [done|]. by destruct t.
    + destruct (Z.eqb_spec c 0) as [->|].
      * intros [= <- <-]. right. left. split; [done|]. exists w. split; [done|]. split; [done|]. right. by exists k.
      * intros [= <- <-]. by left.
Qed.
Lemma scan_len l t r : scan l = (t, r) -> (t = TErr \/ (t = TEnd /\ (length r <= length l)%nat) \/ (length r < length l)%nat).
Proof.
  intros H. destruct (scan_cases l t r H) as [->|[[-> (w & -> & _)]|(w & u & -> & _ & Nu & _)]]; [auto|right; left|right; right].
  - split; [done|]. rewrite app_length. lia.
  - rewrite !app_length. destruct u; [done|]. cbn. lia.
Qed.
Lemma scan_white w l : white w -> scan (w ++ l) = scan l.
Proof. intros H. unfold scan. by rewrite skip_ws_white. Qed.
Lemma scan_punct c r : c ∈ [123; 125; 91; 93; 58; 44] ->
  scan (c :: r) = ((if c =? 123 then TBeginObj else if c =? 125 then TEndObj else if c =? 91 then TBeginArr else if c =? 93 then TEndArr else if c =? 58 then TColon else TComma), r).
Proof. rewrite !elem_of_cons, elem_of_nil. by intros [->|[->|[->|[->|[->|[->|[]]]]]]]. Qed.
Lemma scan_quoted u s r : quoted u s -> scan (u ++ r) = (TStr s, r).
Proof.
  intros (v & -> & Hv). change (scan ((34 :: v ++ [34]) ++ r)) with
    (match scan_string ((v ++ [34]) ++ r) [] with Some (s, r) => (TStr s, r) | None => (TErr, []) end).
  rewrite <- app_assoc. cbn [app]. by rewrite (scan_string_complete v s r Hv).
Qed.
Lemma scan_num u v r : number u v -> ends r ->
  exists tok, scan (u ++ r) = (tok, r) /\ num_token v = Some tok /\ (forall x, v = JFlt x -> is_finite_sf x = true).
Proof.
  intros Hn Hr. destruct (scan_number_complete u v r Hn Hr) as (c & l & tok & -> & Hc & Es & Et & F).
  exists tok. split; [|done].
  assert ((48 <= c <= 57 \/ c = 45)) as R by (unfold digit in Hc; lia).
  assert ((c =? 45) || is_digit c = true) as Eb.
  { destruct Hc as [->|Hc]; [done|]. apply is_digit_spec in Hc. by rewrite Hc, orb_true_r. }
  assert (skip_ws (c :: l) = c :: l) as E.
  { cbn. destruct (is_space c) eqn:E; [|done]. apply is_space_spec in E. rewrite !elem_of_cons, elem_of_nil in E. lia. }
  unfold scan. rewrite E.
  repeat match goal with |- (if ?a =? ?b then _ else _) = _ => destruct (Z.eqb_spec a b); [exfalso; lia|] end.
  by rewrite Eb.
Qed.
Lemma scan_lit lit r : lit ∈ ["null"; "true"; "false"]%string ->
  scan (text lit ++ r) = ((if (lit =? "null")%string then TNull else if (lit =? "true")%string then TTrue else TFalse), r).
Proof.
  rewrite !elem_of_cons, elem_of_nil. intros [->|[->|[->|[]]]].
  - exact (scan_literal_complete [117; 108; 108] TNull r).
  - exact (scan_literal_complete [114; 117; 101] TTrue r).
  - exact (scan_literal_complete [97; 108; 115; 101] TFalse r).
Qed.

(** ** Soundness: what has been read is the beginning of a text *)
Inductive open_arr : list Z -> list json -> Prop :=
| oa_nil w : white w -> open_arr w []
| oa_snoc t vs u v w w' : open_arr t vs -> value u v -> white w -> white w' -> open_arr (t ++ u ++ w ++ 44 :: w') (vs ++ [v]).
Inductive open_obj : list Z -> list (string * json) -> Prop :=
| oo_nil w : white w -> open_obj w []
| oo_snoc t ms kt k w2 w3 u v w w' : open_obj t ms -> quoted kt k -> white w2 -> white w3 -> value u v -> white w -> white w' ->
    open_obj (t ++ kt ++ w2 ++ 58 :: w3 ++ u ++ w ++ 44 :: w') (ms ++ [(str k, v)]).
Inductive prefix : list frame -> list Z -> Prop :=
| pf_nil w : white w -> prefix [] w
| pf_arr st p vs t : prefix st p -> open_arr t vs -> prefix (FArr vs :: st) (p ++ 91 :: t)
| pf_obj st p ms ml kt k w2 w3 t : prefix st p -> open_obj t ml -> JObj ms = jobject ml -> quoted kt k -> white w2 -> white w3 ->
    prefix (FObj ms (str k) :: st) (p ++ 123 :: t ++ kt ++ w2 ++ 58 :: w3).
Definition inv (st : list frame) (f : focus) (p : list Z) : Prop :=
  exists q u, p = q ++ u /\ prefix st q /\ match f with Val v => value u v | Tok t => t = TErr \/ t = TEnd \/ tok_text t u end.

Lemma elements_white w t vs : white w -> array_elements t vs -> array_elements (w ++ t) vs.
Proof.
  intros Hw H. inversion H; subst; rewrite app_assoc; constructor; try done; by apply white_app.
Qed.
Lemma open_arr_app t vs : open_arr t vs -> forall x xs, array_elements x xs -> array_elements (t ++ x) (vs ++ xs).
Proof.
  induction 1 as [w Hw|t vs u v w w' _ IH Hu Hw Hw']; intros x xs Hx.
  - by apply elements_white.
  - rewrite <- !app_assoc. cbn [app]. apply IH. apply (e_more [] u v w); try done; [constructor|]. by apply elements_white.
Qed.
Lemma open_arr_close t vs u v w : open_arr t vs -> value u v -> white w -> value (91 :: t ++ u ++ w ++ [93]) (JArr (vs ++ [v])).
Proof.
  intros Ht Hu Hw. pose proof (v_array (t ++ u ++ w) (vs ++ [v])) as A. rewrite <- !app_assoc in A. apply A.
  apply open_arr_app; [done|]. apply (e_one [] u v w); try done. constructor.
Qed.
Lemma members_white w t vs : white w -> object_members t vs -> object_members (w ++ t) vs.
Proof.
  intros Hw H. inversion H; subst; rewrite app_assoc; constructor; try done; by apply white_app.
Qed.
Lemma open_obj_app t ms : open_obj t ms -> forall x xs, object_members x xs -> object_members (t ++ x) (ms ++ xs).
Proof.
  induction 1 as [w Hw|t ms kt k w2 w3 u v w w' _ IH Hk Hw2 Hw3 Hu Hw Hw']; intros x xs Hx.
  - by apply members_white.
  - repeat (rewrite <- !app_assoc; cbn [app]). apply IH.
    apply (m_more [] kt k w2 w3 u v w); try done; [constructor|]. by apply members_white.
Qed.
Lemma open_obj_close t ml kt k w2 w3 u v w : open_obj t ml -> quoted kt k -> white w2 -> white w3 -> value u v -> white w ->
  value (123 :: t ++ kt ++ w2 ++ 58 :: w3 ++ u ++ w ++ [125]) (jobject (ml ++ [(str k, v)])).
Proof.
  intros Ht Hk H2 H3 Hu Hw. pose proof (v_object (t ++ kt ++ w2 ++ 58 :: w3 ++ u ++ w) (ml ++ [(str k, v)])) as A.
  rewrite <- !app_assoc in A. cbn [app] in A. rewrite <- !app_assoc in A. apply A.
  apply open_obj_app; [done|]. apply (m_one [] kt k w2 w3 u v w); try done. constructor.
Qed.
Lemma jobject_snoc ms ml k v : JObj ms = jobject ml -> JObj (obj_insert k v ms) = jobject (ml ++ [(k, v)]).
Proof. unfold jobject. intros [= ->]. by rewrite fold_left_app. Qed.

(** reading the next token *)
Lemma inv_scan st q l t r : prefix st q -> (forall w, white w -> prefix st (q ++ w)) -> scan l = (t, r) ->
  t = TErr \/ exists p', q ++ l = p' ++ r /\ inv st (Tok t) p'.
Proof.
  intros Hq Hw E. destruct (scan_cases l t r E) as [->|[[-> (w & -> & Hww & _)]|(w & u & -> & Hww & Nu & T)]]; [by left|right|right].
  - exists (q ++ w). split; [by rewrite app_assoc|]. exists (q ++ w), []. rewrite app_nil_r. split; [done|]. split; [by apply Hw|]. auto.
  - exists ((q ++ w) ++ u). split; [by rewrite <- !app_assoc|]. exists (q ++ w), u. split; [done|]. split; [by apply Hw|]. auto.
Qed.
Lemma open_arr_white t vs w : open_arr t vs -> white w -> open_arr (t ++ w) vs.
Proof.
  intros H Hw. inversion H; subst.
  - constructor. by apply white_app.
  - repeat (rewrite <- !app_assoc; cbn [app]). constructor; try done. by apply white_app.
Qed.
Lemma prefix_white st q w : prefix st q -> white w -> prefix st (q ++ w).
Proof.
  intros H Hw. inversion H; subst.
  - constructor. by apply white_app.
  - rewrite <- app_assoc. cbn [app]. constructor; [done|]. by apply open_arr_white.
  - repeat (rewrite <- !app_assoc; cbn [app]). econstructor; try done. by apply white_app.
Qed.
Lemma inv_next st q l t r : prefix st q -> scan l = (t, r) -> t = TErr \/ exists p', q ++ l = p' ++ r /\ inv st (Tok t) p'.
Proof. intros H. apply inv_scan; [done|]. intros. by apply prefix_white. Qed.

Lemma end_arr t : t = TEndArr \/ (t <> TEndArr /\ forall A (a b : A), match t with TEndArr => a | _ => b end = b).
Proof. destruct t; auto; by right. Qed.
Lemma sax_err fuel st l : sax_loop fuel st (Tok TErr) l = OutOfFuel \/ sax_loop fuel st (Tok TErr) l = Ret None.
Proof. destruct fuel; [by left|by right]. Qed.
Lemma scan_is l t r u0 : scan l = (t, r) -> (forall u, tok_text t u -> u = u0) -> t <> TErr -> t <> TEnd -> exists w, l = w ++ u0 ++ r /\ white w.
Proof.
  intros E H N1 N2. destruct (scan_cases l t r E) as [->|[[-> _]|(w & u & -> & Hw & _ & T)]]; try done. apply H in T as ->. by exists w.
Qed.
Lemma scan_str l k r : scan l = (TStr k, r) -> exists w u, l = w ++ u ++ r /\ white w /\ quoted u k.
Proof.
  intros E. destruct (scan_cases l _ r E) as [|[[? _]|(w & u & -> & Hw & _ & T)]]; try done. by exists w, u.
Qed.
Lemma sax_sound fuel : forall st f l j r p, inv st f p -> sax_loop fuel st f l = Ret (Some (j, r)) ->
  exists w u, p ++ l = w ++ u ++ r /\ white w /\ value u j.
Proof.
  induction fuel as [|fuel IH]; intros st f l j r p (q & u & -> & Hq & Hf) H; [done|].
  assert (forall st' q' l' t' l'', prefix st' q' -> scan l' = (t', l'') -> sax_loop fuel st' (Tok t') l'' = Ret (Some (j, r)) ->
            exists w u, q' ++ l' = w ++ u ++ r /\ white w /\ value u j) as NX.
  { intros st' q' l' t' l'' Hq' Es Hl. destruct (inv_next _ _ _ _ _ Hq' Es) as [->|(p' & -> & Hi)].
    - destruct (sax_err fuel st' l'') as [E|E]; congruence.
    - by eapply IH. }
  assert (forall v l', value u v -> sax_loop fuel st (Val v) l' = Ret (Some (j, r)) -> exists w u', (q ++ u) ++ l' = w ++ u' ++ r /\ white w /\ value u' j) as VX.
  { intros v l' Hv Hl. eapply IH; [|exact Hl]. by exists q, u. }
  destruct f as [t|v]; cbn [sax_loop] in H.
  - destruct t; try done; (destruct Hf as [|[|Hf]]; [done..|]); cbn [tok_text] in Hf.
    + (* { *) subst u. destruct (scan l) as [t1 l1] eqn:E1. destruct t1; try done.
      * apply (scan_is _ _ _ [125]) in E1 as (w & -> & Hw); try done. apply IH with (p := q ++ 123 :: w ++ [125]) in H.
        -- destruct H as (w0 & u0 & E0 & ?). exists w0, u0. split; [|done]. rewrite <- E0. by repeat (rewrite <- !app_assoc; cbn [app]).
        -- exists q, (123 :: w ++ [125]). split; [done|]. split; [done|]. by constructor.
      * destruct (scan l1) as [t2 l2] eqn:E2. destruct t2; try done. destruct (scan l2) as [t3 l3] eqn:E3.
        apply scan_str in E1 as (w & kt & -> & Hw & Hk). apply (scan_is _ _ _ [58]) in E2 as (w2 & -> & Hw2); try done.
        eapply (NX _ (q ++ 123 :: w ++ kt ++ w2 ++ 58 :: [])) in E3; [|by eapply pf_obj with (ml := []); try done; constructor|exact H].
        destruct E3 as (w0 & u0 & E0 & ?). exists w0, u0. split; [|done]. rewrite <- E0. by repeat (rewrite <- !app_assoc; cbn [app]).
    + (* [ *) subst u. destruct (scan l) as [t1 l1] eqn:E1.
      destruct (end_arr t1) as [->|[N D]].
      * apply (scan_is _ _ _ [93]) in E1 as (w & -> & Hw); try done. apply IH with (p := q ++ 91 :: w ++ [93]) in H.
        -- destruct H as (w0 & u0 & E0 & ?). exists w0, u0. split; [|done]. rewrite <- E0. by repeat (rewrite <- !app_assoc; cbn [app]).
        -- exists q, (91 :: w ++ [93]). split; [done|]. split; [done|]. by constructor.
      * rewrite D in H. eapply (NX _ (q ++ 91 :: [])) in E1; [|apply pf_arr; [done|]; constructor; constructor|exact H].
        destruct E1 as (w0 & u0 & E0 & ?). exists w0, u0. split; [|done]. rewrite <- E0. by repeat (rewrite <- !app_assoc; cbn [app]).
    + (* true *) subst u. eapply VX; [|exact H]. constructor.
    + subst u. eapply VX; [|exact H]. constructor.
    + subst u. eapply VX; [|exact H]. constructor.
    + eapply VX; [|exact H]. by constructor.
    + eapply VX; [|exact H]. by constructor.
    + eapply VX; [|exact H]. by constructor.
    + destruct (is_finite_sf x) eqn:Ef; [|done]. eapply VX; [|exact H]. constructor. by apply Hf.
  - destruct st as [|[vs|ms k] st].
    + injection H as -> ->. inversion Hq; subst. exists q, u. split; [by rewrite <- app_assoc|done].
    + inversion Hq as [|? p0 ? t Hp Ht|]; subst. destruct (scan l) as [t1 l1] eqn:E1. destruct t1; try done.
      * apply (scan_is _ _ _ [93]) in E1 as (w & -> & Hw); try done. apply IH with (p := p0 ++ 91 :: t ++ u ++ w ++ [93]) in H.
        -- destruct H as (w0 & u0 & E0 & ?). exists w0, u0. split; [|done]. rewrite <- E0. by repeat (rewrite <- !app_assoc; cbn [app]).
        -- eexists p0, _. split; [done|]. split; [done|]. by apply open_arr_close.
      * destruct (scan l1) as [t2 l2] eqn:E2. apply (scan_is _ _ _ [44]) in E1 as (w & -> & Hw); try done.
        eapply (NX _ (p0 ++ 91 :: t ++ u ++ w ++ 44 :: [])) in E2; [|apply pf_arr; [done|]; constructor; try done; constructor|exact H].
        destruct E2 as (w0 & u0 & E0 & ?). exists w0, u0. split; [|done]. rewrite <- E0. by repeat (rewrite <- !app_assoc; cbn [app]).
    + inversion Hq as [| |? p0 ? ml kt k' w2 w3 t Hp Ht Em Hk Hw2 Hw3]; subst. destruct (scan l) as [t1 l1] eqn:E1. destruct t1; try done.
      * apply (scan_is _ _ _ [125]) in E1 as (w & -> & Hw); try done.
        apply IH with (p := p0 ++ 123 :: t ++ kt ++ w2 ++ 58 :: w3 ++ u ++ w ++ [125]) in H.
        -- destruct H as (w0 & u0 & E0 & ?). exists w0, u0. split; [|done]. rewrite <- E0. by repeat (rewrite <- !app_assoc; cbn [app]).
        -- eexists p0, _. split; [done|]. split; [done|]. erewrite jobject_snoc by done. by apply open_obj_close.
      * destruct (scan l1) as [t2 l2] eqn:E2. destruct t2 as [| | | | | | | | |k2| | | | |]; try done. destruct (scan l2) as [t3 l3] eqn:E3. destruct t3; try done.
        destruct (scan l3) as [t4 l4] eqn:E4.
        apply (scan_is _ _ _ [44]) in E1 as (w & -> & Hw); try done.
        apply scan_str in E2 as (w5 & kt2 & -> & Hw5 & Hk2). apply (scan_is _ _ _ [58]) in E3 as (w6 & -> & Hw6); try done.
        eapply (NX _ (p0 ++ 123 :: (t ++ kt ++ w2 ++ 58 :: w3 ++ u ++ w ++ 44 :: w5) ++ kt2 ++ w6 ++ 58 :: [])) in E4;
          [|eapply pf_obj; [done| |by apply jobject_snoc|done..|constructor]; by constructor|exact H].
        destruct E4 as (w0 & u0 & E0 & ?). exists w0, u0. split; [|done]. rewrite <- E0. by repeat (rewrite <- !app_assoc; cbn [app]).
Qed.
