(** * Documents that come from a text can be written; documents that hold an estimator can be written. *)
From Verif Require Import FloatFacts.
From Verif Require Import StateProps.
From Verif Require Import TextIO.
From Verif Require Import JsonGrammar LexFacts NumFacts ParseProps DumpFacts DumpProps.
From Coq Require Import ZArith Lia Sorting.Sorted.
From stdpp Require Import list.
Local Open Scope Z_scope.

(** ** Strings of a text are UTF-8 *)
Lemma text_str b : Forall (fun z => 0 <= z < 256) b -> text (str b) = b.
Proof.
  intros H. unfold text, str. rewrite list_ascii_of_string_of_list_ascii, map_map. induction H as [|z b Hz _ IH]; [done|]. cbn [map]. rewrite IH. f_equal.
  rewrite Ascii.N_ascii_embedding by lia. lia.
Qed.
Lemma utf8_bytes cp : scalar cp -> Forall (fun z => 0 <= z < 256) (utf8 cp).
Proof.
  intros H. unfold scalar in H. unfold utf8. destruct (Z.ltb_spec cp 128); [|destruct (Z.ltb_spec cp 2048); [|destruct (Z.ltb_spec cp 65536)]].
  all: repeat (apply Forall_cons_2; [zdiv|]); apply Forall_nil_2.
Qed.
Lemma characters_scalars t b : characters t b -> exists cps, Forall scalar cps /\ b = concat (map utf8 cps).
Proof.
  induction 1 as [|t b t' b' H _ (cps & Hc & ->)]; [by exists []|].
  assert (exists cp, scalar cp /\ b = utf8 cp) as (cp & Hs & ->).
  { destruct H as [cp Hs _ _ _|e c Hin|h cp _ Hs|h1 h2 hi lo _ _ H1 H2].
    - by exists cp.
    - rewrite !elem_of_cons, elem_of_nil in Hin. exists c. unfold scalar, utf8.
      destruct Hin as [E|[E|[E|[E|[E|[E|[E|[E|[]]]]]]]]]; injection E as -> ->; cbn; (split; [lia|done]).
    - by exists cp.
    - eexists. split; [|done]. unfold scalar. lia. }
  exists (cp :: cps). split; [by constructor|done].
Qed.
Lemma scalars_bytes cps : Forall scalar cps -> Forall (fun z => 0 <= z < 256) (concat (map utf8 cps)).
Proof. induction 1; [constructor|]. cbn. apply Forall_app_2; [by apply utf8_bytes|done]. Qed.
Lemma quoted_utf8 t b : quoted t b -> utf8_string (str b).
Proof.
  intros (u & _ & H). apply characters_scalars in H as (cps & Hc & ->). exists cps. split; [done|]. apply text_str. by apply scalars_bytes.
Qed.
Lemma number_writable t j : number t j -> writable j.
Proof.
  destruct 1 as [t Hi Hl|t Hi Hl|neg i ft f et e x _ _ _ _ Hx].
  - cbn. split; [|done]. apply decimal_nonneg. by apply integer_digits.
  - cbn. assert (0 <= decimal t) by (apply decimal_nonneg; by apply integer_digits). lia.
  - apply Hx.
Qed.

(** ** Objects *)
Lemma writable_object ms : Forall (fun kv => utf8_string (fst kv) /\ writable (snd kv)) ms -> writable (jobject ms).
Proof.
  intros H. rewrite jobject_members. apply writable_obj. split; [exact (members_sorted ms)|].
  unfold members. assert (forall acc, Forall (fun kv => utf8_string (fst kv) /\ writable (snd kv)) acc ->
    Forall (fun kv => utf8_string (fst kv) /\ writable (snd kv)) (fold_left (fun l kv => obj_insert kv.1 kv.2 l) ms acc)) as G; [|by apply G].
  induction H as [|[k v] ms Hk _ IH]; intros acc Ha; [done|]. cbn [fold_left fst snd]. apply IH. apply list.Forall_forall. intros kv Hin.
  apply obj_insert_in in Hin as [->|Hin]; [done|]. by eapply list.Forall_forall in Ha.
Qed.

Lemma value_writable : (forall t j, value t j -> writable j) /\ (forall t vs, array_elements t vs -> Forall writable vs) /\
  (forall t ms, object_members t ms -> Forall (fun kv => utf8_string (fst kv) /\ writable (snd kv)) ms).
Proof.
  apply (value_mutind (fun t j => writable j) (fun t vs => Forall writable vs) (fun t ms => Forall (fun kv => utf8_string (fst kv) /\ writable (snd kv)) ms)).
  - exact Logic.I.
  - exact Logic.I.
  - exact Logic.I.
  - intros t j H. by eapply number_writable.
  - intros t b H. by eapply quoted_utf8.
  - intros w _. exact Logic.I.
  - intros t vs _ IH. by apply writable_arr.
  - intros w _. apply writable_obj. by split; constructor.
  - intros t ms _ IH. by apply writable_object.
  - intros w1 t v w2 _ _ IH _. by repeat constructor.
  - intros w1 t v w2 t' vs _ _ IH _ _ IH'. by constructor.
  - intros w1 kt k w2 w3 t v w4 _ Hq _ _ _ IH _. constructor; [|constructor]. split; [by eapply quoted_utf8|done].
  - intros w1 kt k w2 w3 t v w4 t' ms _ Hq _ _ _ IH _ _ IH'. constructor; [|done]. split; [by eapply quoted_utf8|done].
Qed.
Lemma parse_writable t j : parse t = Ret (Some j) -> writable j.
Proof.
  intros H. apply parse_spec in H as (t0 & r & _ & (bom & w1 & u & w2 & _ & _ & _ & Hv & _) & _). by eapply value_writable.
Qed.
