(** * What a text given to the library stands for.  The library's JSON reader takes a zero byte between tokens for the end of the text. *)
From Verif Require Import Json JsonGrammar.
From stdpp Require Import list.
Local Open Scope Z_scope.

(** what a text stands for: the value of the JSON text it begins with, if the rest is empty or begins with a zero byte *)
Definition stands_for (t : list Z) (j : json) : Prop := exists t0 r, t = t0 ++ r /\ json_text t0 j /\ (r = [] \/ exists r', r = 0 :: r').

