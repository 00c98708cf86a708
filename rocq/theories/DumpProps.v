(** * json::dump writes a text that denotes the value (up to [reparse]), and json::parse reads it back. *)
From Verif Require Import Base Floats JsonText StateJson.
From Verif Require Import JsonGrammar LexFacts NumFacts ParseProps DumpFacts DumpNum.
From stdpp Require Import list.
From Coq Require Import ZArith Lia Sorting.Sorted.
Local Open Scope Z_scope.

(** ** What nlohmann::json can hold, with its strings UTF-8: the values dump accepts *)
Definition utf8_string (s : string) : Prop := exists cps, Forall scalar cps /\ text s = concat (map utf8 cps).
Definition member_lt (a b : string * json) : Prop := String.compare (fst a) (fst b) = Lt.
Fixpoint writable (j : json) : Prop :=
  match j with
  | JNull | JBool _ => True
  | JInt z => - 2 ^ 63 <= z < 2 ^ 63
  | JUns z => 0 <= z < 2 ^ 64
  | JFlt x => SpecFloat.valid_binary 53 1024 x = true
  | JStr s => utf8_string s
  | JArr l => (fix all l := match l with [] => True | v :: l => writable v /\ all l end) l
  | JObj l => StronglySorted member_lt l /\ (fix all l := match l with [] => True | (k, v) :: l => (utf8_string k /\ writable v) /\ all l end) l
  end.

Section Ind.
  Context (P : json -> Prop).
  Context (Hn : P JNull) (Hb : forall b, P (JBool b)) (Hi : forall z, P (JInt z)) (Hu : forall z, P (JUns z)) (Hf : forall x, P (JFlt x)) (Hs : forall s, P (JStr s)).
  Context (Ha : forall l, Forall P l -> P (JArr l)) (Ho : forall l, Forall (fun kv => P (snd kv)) l -> P (JObj l)).
  Fixpoint json_nested (j : json) : P j :=
    match j with
    | JNull => Hn | JBool b => Hb b | JInt z => Hi z | JUns z => Hu z | JFlt x => Hf x | JStr s => Hs s
    | JArr l => Ha l ((fix go l : Forall P l := match l with [] => Forall_nil_2 _ | v :: l => Forall_cons_2 _ v l (json_nested v) (go l) end) l)
    | JObj l => Ho l ((fix go l : Forall (fun kv => P (snd kv)) l :=
                        match l with [] => Forall_nil_2 _ | kv :: l => Forall_cons_2 _ kv l (json_nested (snd kv)) (go l) end) l)
    end.
End Ind.

Lemma writable_arr l : writable (JArr l) <-> Forall writable l.
Proof.
  induction l as [|v l IH]; [by split; [constructor|]|]. rewrite Forall_cons, <- IH. cbn. tauto.
Qed.
Lemma writable_obj l : writable (JObj l) <-> StronglySorted member_lt l /\ Forall (fun kv => utf8_string (fst kv) /\ writable (snd kv)) l.
Proof.
  cbn [writable]. assert (forall l : list (string * json), (fix all l := match l with [] => True | (k, v) :: l => (utf8_string k /\ writable v) /\ all l end) l <->
    Forall (fun kv => utf8_string (fst kv) /\ writable (snd kv)) l) as H; [|by rewrite H].
  clear l. induction l as [|[k v] l IH]; [by split; [constructor|]|]. rewrite Forall_cons, <- IH. done.
Qed.

(** ** Strings *)
Lemma str_text s : str (text s) = s.
Proof.
  unfold str, text. rewrite map_map. rewrite <- (string_of_list_ascii_of_string s) at 2. f_equal.
  rewrite <- (map_id (list_ascii_of_string s)) at 2. apply map_ext. intros a. rewrite N2Z.id. apply Ascii.ascii_N_embedding.
Qed.
Lemma dump_string_spec s : utf8_string s -> exists t, dump_string s = Ret t /\ quoted (34 :: t ++ [34]) (text s).
Proof.
  intros (cps & Hc & E). unfold dump_string. change (bytes s) with (text s). rewrite E. rewrite dump_chars by (cbn; (done || lia)).
  eexists. split; [reflexivity|]. cbn [app]. eexists. split; [reflexivity|]. by apply esc_characters.
Qed.

(** ** Objects whose members are in order *)
Lemma insert_last k v l : Forall (fun kv => String.compare (fst kv) k = Lt) l -> obj_insert k v l = l ++ [(k, v)].
Proof.
  induction 1 as [|[k' v'] l H _ IH]; [done|]. cbn [obj_insert]. cbn [fst] in H. rewrite String.compare_antisym, H. cbn [CompOpp]. by rewrite IH.
Qed.
Lemma jobject_sorted ms : StronglySorted member_lt ms -> jobject ms = JObj ms.
Proof.
  intros H. unfold jobject. f_equal.
  assert (forall acc, Forall (fun a => Forall (member_lt a) ms) acc -> fold_left (fun l kv => obj_insert kv.1 kv.2 l) ms acc = acc ++ ms) as G; [|exact (G [] ltac:(constructor))].
  induction H as [|[k v] ms Hs IH Hk]; intros acc Ha; [by rewrite app_nil_r|]. cbn [fold_left fst snd]. rewrite insert_last.
  - rewrite IH; [by rewrite <- app_assoc|]. apply Forall_app_2.
    + eapply Forall_impl; [exact Ha|]. intros a Q. by inversion Q.
    + constructor; [done|constructor].
  - eapply Forall_impl; [exact Ha|]. intros a Q. by inversion Q.
Qed.

(** ** Values *)
Lemma white_nil : white [].
Proof. constructor. Qed.
Fixpoint dump_elems (first : bool) (l : list json) (out : list Z) : outcome (list Z) :=
  match l with
  | [] => Ret (91 :: out ++ [93])
  | v :: l => let* t := dump v in dump_elems false l (out ++ (if first then [] else [44]) ++ t)
  end.
Fixpoint dump_members (first : bool) (l : list (string * json)) (out : list Z) : outcome (list Z) :=
  match l with
  | [] => Ret (123 :: out ++ [125])
  | (k, v) :: l => let* s := dump_string k in let* t := dump v in dump_members false l (out ++ (if first then [] else [44]) ++ 34 :: s ++ 34 :: 58 :: t)
  end.
Lemma dump_elems_cons first v l out : dump_elems first (v :: l) out = let* t := dump v in dump_elems false l (out ++ (if first then [] else [44]) ++ t).
Proof. reflexivity. Qed.
Lemma dump_members_cons first k v l out : dump_members first ((k, v) :: l) out =
  let* s := dump_string k in let* t := dump v in dump_members false l (out ++ (if first then [] else [44]) ++ 34 :: s ++ 34 :: 58 :: t).
Proof. reflexivity. Qed.
Lemma dump_arr l : dump (JArr l) = dump_elems true l [].
Proof. reflexivity. Qed.
Lemma dump_obj l : dump (JObj l) = dump_members true l [].
Proof. reflexivity. Qed.
Theorem dump_spec j : writable j -> exists t, dump j = Ret t /\ value t (reparse j).
Proof.
  induction j as [|b|z|z|x|s|l IH|l IH] using json_nested; intros H.
  - eexists. split; [reflexivity|]. apply v_null.
  - eexists. split; [reflexivity|]. destruct b; constructor.
  - cbn [dump reparse writable] in *. destruct (Z.ltb_spec z 0).
    + destruct (dump_negative z) as (t & E & Hn); [lia|]. exists t. split; [done|]. by apply v_number.
    + destruct (dump_unsigned z) as (t & E & Hn); [|exists t; split; [done|by apply v_number]]. change (2 ^ 63) with 9223372036854775808 in H. change (2 ^ 64) with 18446744073709551616. lia.
  - cbn [dump reparse writable] in *. destruct (dump_unsigned z) as (t & E & Hn); [done|]. exists t. split; [done|]. by apply v_number.
  - cbn [dump reparse writable] in *. destruct (is_finite_sf x) eqn:F.
    + destruct (dump_float_spec x H F) as (t & E & Hn). exists t. split; [done|]. by apply v_number.
    + unfold dump_float. rewrite F. eexists. split; [reflexivity|]. apply v_null.
  - cbn [dump reparse writable] in *. destruct (dump_string_spec s H) as (t & -> & Hq). cbn [obind]. eexists. split; [reflexivity|].
    rewrite <- (str_text s). by apply v_string.
  - rewrite writable_arr in H. rewrite dump_arr. cbn [reparse].
    assert (forall v l', Forall writable (v :: l') -> Forall (fun j => writable j -> exists t, dump j = Ret t /\ value t (reparse j)) (v :: l') ->
              forall first out, exists t, dump_elems first (v :: l') out = Ret (91 :: out ++ (if first then [] else [44]) ++ t ++ [93]) /\
              array_elements t (map reparse (v :: l'))) as G.
    { clear. intros v l. revert v. induction l as [|v' l IHl]; intros v H IH first out.
      - inversion H as [|? ? Hv _]; inversion IH as [|? ? Iv _]; subst. destruct (Iv Hv) as (t & E & Hval).
        exists t. rewrite dump_elems_cons, E. cbn [obind dump_elems]. split; [by rewrite <- !app_assoc|].
        pose proof (e_one [] t (reparse v) [] white_nil Hval white_nil) as Q. by rewrite app_nil_r in Q.
      - inversion H as [|? ? Hv H']; inversion IH as [|? ? Iv IH']; subst. destruct (Iv Hv) as (t & E & Hval).
        rewrite dump_elems_cons, E. cbn [obind]. destruct (IHl v' H' IH' false (out ++ (if first then [] else [44]) ++ t)) as (t' & E' & Hel).
        exists (t ++ 44 :: t'). split.
        + rewrite E'. cbn [app]. by rewrite <- !app_assoc.
        + pose proof (e_more [] t (reparse v) [] t' _ white_nil Hval white_nil Hel) as Q. exact Q. }
    destruct l as [|v l].
    + eexists. split; [reflexivity|]. exact (v_array_empty [] white_nil).
    + destruct (G v l H IH true []) as (t & E & Hel). rewrite E. cbn [app]. eexists. split; [reflexivity|]. by apply v_array.
  - rewrite writable_obj in H. destruct H as [Hs H]. rewrite dump_obj. cbn [reparse].
    set (rp := fun '(k, v) => (k, reparse v)).
    assert (forall v l', Forall (fun kv => utf8_string (fst kv) /\ writable (snd kv)) (v :: l') -> Forall (fun kv => writable (snd kv) -> exists t, dump (snd kv) = Ret t /\ value t (reparse (snd kv))) (v :: l') ->
              forall first out, exists t, dump_members first (v :: l') out = Ret (123 :: out ++ (if first then [] else [44]) ++ t ++ [125]) /\
              object_members t (map rp (v :: l'))) as G.
    { clear. intros v l. revert v. induction l as [|v' l IHl]; intros [k v] H IH first out.
      - inversion H as [|? ? [Hk Hv] _]; inversion IH as [|? ? Iv _]; subst. destruct (Iv Hv) as (t & E & Hval). destruct (dump_string_spec k Hk) as (s & Es & Hq). cbn [fst snd] in *.
        exists (34 :: s ++ 34 :: 58 :: t). rewrite dump_members_cons, Es. cbn [obind]. rewrite E. cbn [obind dump_members]. split.
        + do 2 f_equal. rewrite <- !app_assoc. reflexivity.
        + pose proof (m_one [] _ _ [] [] t (reparse v) [] white_nil Hq white_nil white_nil Hval white_nil) as Q. cbn [app] in Q.
          rewrite app_nil_r, <- app_assoc, str_text in Q. exact Q.
      - inversion H as [|? ? [Hk Hv] H']; inversion IH as [|? ? Iv IH']; subst. destruct (Iv Hv) as (t & E & Hval). destruct (dump_string_spec k Hk) as (s & Es & Hq). cbn [fst snd] in *.
        rewrite dump_members_cons, Es. cbn [obind]. rewrite E. cbn [obind].
        destruct (IHl v' H' IH' false (out ++ (if first then [] else [44]) ++ 34 :: s ++ 34 :: 58 :: t)) as (t' & E' & Hel).
        exists (34 :: s ++ 34 :: 58 :: t ++ 44 :: t'). split.
        + rewrite E'. do 2 f_equal. rewrite <- !app_assoc. cbn [app]. repeat (rewrite <- !app_assoc; cbn [app]). reflexivity.
        + pose proof (m_more [] _ _ [] [] t (reparse v) [] t' _ white_nil Hq white_nil white_nil Hval white_nil Hel) as Q. cbn [app] in Q.
          rewrite <- app_assoc, str_text in Q. exact Q. }
    destruct l as [|v l].
    + eexists. split; [reflexivity|]. exact (v_object_empty [] white_nil).
    + destruct (G v l H IH true []) as (t & E & Hel). rewrite E. cbn [app]. eexists. split; [reflexivity|].
      rewrite <- jobject_sorted; [by apply v_object|].
      clear -Hs. induction Hs as [|[k x] ms Hs IHs Hk]; [constructor|]. cbn [map]. constructor; [done|].
      clear -Hk. induction Hk as [|[k' x'] ms H _ IH]; [constructor|]. cbn [map]. constructor; done.
Qed.

(** ** Reading back *)
Theorem parse_dump j : writable j -> exists t, dump j = Ret t /\ parse t = Ret (Some (reparse j)).
Proof.
  intros H. destruct (dump_spec j H) as (t & E & Hv). exists t. split; [done|]. apply parse_spec. exists t, [].
  rewrite app_nil_r. split; [done|]. split; [|by left]. exists [], [], t, []. rewrite app_nil_r.
  split; [done|]. split; [by left|]. split; [exact white_nil|]. split; [done|exact white_nil].
Qed.
