(** * Concrete caching tossers (C64, C65). *)
From Verif Require Import CachedTosserProps CachedTossers CachedTosserFacts CtFacts FrandCache FrandFacts ToyFacts Toy Wp.
From stdpp Require Import list.
Local Open Scope Z_scope.

(** a tosser for 3 tosses with 130 extra ones and s = 3: 44 of 133 tosses are ones; five calls *)
Definition toy_bytes := let* '(bt, g) := bt_populate toy (f32_of_Z 3) (bt_new 3 130) 7 in
  let* '(ws, bt2, _) := bt_run toy 5 bt g in Ret (ws, count_ones (bt_cache bt), count_ones (bt_cache bt2)).
Lemma toy_bytes_eq : ones_wanted (3 + 130) (f32_of_Z 3) = Ret 44 /\ toy_bytes = Ret ([(0%nat, [0; 1; 0]); (64%nat, [0; 0; 0]); (0%nat, [0; 1; 0]); (64%nat, [0; 0; 0]); (64%nat, [0; 0; 0])], 44%nat, 44%nat).
Proof. split; vm_compute; reflexivity. Qed.
(** the tosser of a bitwise cache for 10 features: 4 words, 85 of 256 bits set; five calls return the words 1, 0, 2, 1, 0 *)
Definition toy_words := let* kt := bitwise_cache_tosser 10 in let* '(kt, g) := kt_populate toy (f32_of_Z 3) kt 7 in
  let* '(ws, _, _) := kt_run toy 5 kt g in Ret (map (fun w => (w.1.1, take 10 (drop (64 * w.1.1) w.2))) ws, count_ones (kbits (kt_cache kt)), length (bv_blocks (kt_cache kt))).
Lemma toy_words_eq : toy_words = Ret ([(1%nat, [0; 0; 0; 0; 1; 1; 0; 0; 0; 0]); (0%nat, [1; 1; 0; 1; 1; 0; 1; 1; 0; 1]); (2%nat, [0; 1; 0; 0; 1; 0; 1; 0; 1; 1]);
  (1%nat, [0; 0; 0; 1; 1; 1; 0; 0; 0; 0]); (0%nat, [1; 1; 0; 1; 1; 0; 1; 1; 0; 1])], 85%nat, 4%nat).
Proof. vm_compute. reflexivity. Qed.
(** a cache of two floats: two reads, one read, two reads *)
Definition toy_fops := [FRefill; FNext; FNext; FRefill; FNext; FRefill; FNext; FNext].
Lemma toy_floats : within 2 2 toy_fops /\ exists xs c, fc_run toy toy_fops (fc_new 2) (f_init toy 3) = Ret (xs, c, f_skip toy 5 (f_init toy 3)) /\ length xs = 5%nat /\ xs <> f_draws toy 5 (f_init toy 3).
Proof.
  split; [cbn; lia|]. eexists _, _. split; [vm_compute; reflexivity|]. split; [reflexivity|]. intros Q. vm_compute in Q. discriminate Q.
Qed.
