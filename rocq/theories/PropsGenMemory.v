(** * Property theorems about copies of generators: C57.
    Reading guide: an object at address [o] occupies [g_sizeof] bytes; [same_generator m1 o1 m2 o2] says that index, results and state
    words (at the addresses the generator computes for them) agree byte for byte. *)
From Verif Require Import GenMemoryFacts.
From stdpp Require Import list.
Local Open Scope Z_scope.

(** ** C57: assignment copies the generator between any two addresses, and writes to the target only *)
Theorem C57_assign : forall m this other, in_memory this -> in_memory other -> apart this other ->
  same_generator (g_assign m this other) this m other /\
  (forall x, x < this \/ this + g_sizeof <= x -> g_assign m this other x = m x).
Proof. exact assign_spec. Qed.
Print Assumptions C57_assign.
(** copy construction, which clone_state uses, copies the generator between objects at 64-byte aligned addresses, where C++17 puts them *)
Theorem C57_copy_construct : forall m this other, in_memory this -> in_memory other -> apart this other -> this mod 64 = 0 -> other mod 64 = 0 ->
  same_generator (g_copy_construct m this other) this m other /\
  (forall x, x < this \/ this + g_sizeof <= x -> g_copy_construct m this other x = m x).
Proof. intros m this other H1 H2 H3 H4 H5. apply copy_construct_spec; congruence. Qed.
Print Assumptions C57_copy_construct.
(** but, unlike assignment, not between addresses with different remainders, as an allocator ignoring alignas would give: the copy reads its
    words elsewhere *)
Theorem C57_copy_construct_refuted : forall this other, in_memory this -> in_memory other -> apart this other -> this mod 64 <> other mod 64 ->
  exists m, ~ same_generator (g_copy_construct m this other) this m other.
Proof. exact copy_construct_wrong. Qed.
Print Assumptions C57_copy_construct_refuted.
Example C57_example : in_memory 4096 /\ in_memory 65536 /\ apart 4096 65536 /\ 4096 mod 64 = 0 /\ 65536 mod 64 = 0 /\
  in_memory 65552 /\ apart 4096 65552 /\ 4096 mod 64 <> 65552 mod 64 /\ g_sizeof = 40128 /\ g_RESp 65552 = 65664.
Proof. unfold in_memory, apart. rewrite !g_sizeof_eq. unfold size_max. repeat split; try lia; done. Qed.
