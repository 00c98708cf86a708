(** * Property theorems about the generators and environments: C40, C41, C51.  Reading guide: [irng] / [frng] are the states of
    IRNG / FRNG (Rng.v), [draws next n g] is the list of the next [n] draws and the generator afterwards (Mt.v). *)
From Verif Require Import MtInst.
From stdpp Require Import list.
Local Open Scope Z_scope.

(** C40: whatever the seed and the number of draws, the generator is never outside its buffers ([mt_index] below 624 * 8, both buffers
    full size), integer draws are 32-bit unsigned values, float draws are in (0, 1]. *)
Theorem C40_integer_draws : forall seed n, let '(vs, g) := draws irng_next n (irng_init seed) in
  length vs = n /\ Forall (fun v => 0 <= v < 4294967296) vs /\ (mt_index g < 4992)%nat /\ length (mt_res g) = 4992%nat /\ length (mt_mt g) = 4992%nat.
Proof.
  intros seed n. destruct (draws irng_next n (irng_init seed)) as [vs g] eqn:E. pose proof (draws_length irng_next n (irng_init seed)) as H0.
  pose proof (draws_inv irng_next irng_ok w32 n _ irng_next_ok (irng_init_ok seed)) as [H1 [[H2 H3 H4 _ _] _]]. rewrite E in *. exact (conj H0 (conj H1 (conj H2 (conj H3 H4)))).
Qed.
Print Assumptions C40_integer_draws.
Theorem C40_float_draws : forall seed n, let '(vs, f) := draws frng_next n (frng_init seed) in
  length vs = n /\ Forall (fun v => f_lt (S754_zero false) v = true /\ f_le v f32_one = true) vs /\
  (mt_index f < 4992)%nat /\ length (mt_res f) = 4992%nat /\ length (mt_mt f) = 4992%nat.
Proof.
  intros seed n. destruct (draws frng_next n (frng_init seed)) as [vs g] eqn:E. pose proof (draws_length frng_next n (frng_init seed)) as H0.
  pose proof (draws_inv frng_next frng_ok f_unit n _ frng_next_ok (frng_init_ok seed)) as [H1 [[H2 H3 H4 _ _] _]]. rewrite E in *. exact (conj H0 (conj H1 (conj H2 (conj H3 H4)))).
Qed.
Print Assumptions C40_float_draws.

(** bounded draws: next(x) is below x, next(a, b) is in [a, b] *)
Theorem C40_bounded_draws : forall seed n, let g := (draws irng_next n (irng_init seed)).2 in
  (forall x, 0 < x < 4294967296 -> exists r g', irng_next_below g x = Ret (r, g') /\ 0 <= r < x) /\
  (forall a b, 0 <= a <= b -> b < int_max -> exists r g', irng_next_range g a b = Ret (r, g') /\ a <= r <= b).
Proof.
  intros seed n g. pose proof (draws_inv irng_next irng_ok w32 n _ irng_next_ok (irng_init_ok seed)) as [_ Hg]. split.
  - intros x Hx. destruct (next_below_spec g x Hg Hx) as (r & g' & H1 & H2 & _). by exists r, g'.
  - intros a b Hab Hb. destruct (next_range_spec g a b Hg Hab Hb) as (r & g' & H1 & H2 & _). by exists r, g'.
Qed.
Print Assumptions C40_bounded_draws.

(** operator== : generators that compare equal draw the same numbers for ever; a copy compares equal and draws the same numbers *)
Theorem C40_equal_generators : forall seed1 seed2 n1 n2 m,
  (let a := (draws irng_next n1 (irng_init seed1)).2 in let b := (draws irng_next n2 (irng_init seed2)).2 in
   (mt_eqb Z.eqb a b = true -> draws irng_next m a = draws irng_next m b) /\
   mt_eqb Z.eqb a (mt_assign a) = true /\ draws irng_next m (mt_assign a) = draws irng_next m a) /\
  (let a := (draws frng_next n1 (frng_init seed1)).2 in let b := (draws frng_next n2 (frng_init seed2)).2 in
   (mt_eqb feqb a b = true -> (draws frng_next m a).1 = (draws frng_next m b).1) /\
   mt_eqb feqb a (mt_assign a) = true /\ draws frng_next m (mt_assign a) = draws frng_next m a).
Proof.
  intros seed1 seed2 n1 n2 m. split; intros a b.
  - pose proof (draws_inv irng_next irng_ok w32 n1 _ irng_next_ok (irng_init_ok seed1)) as [_ [Ha _]]. fold a in Ha.
    clearbody a b. rewrite (assign_id _ _ Ha). split; [apply irng_eqb_draws|]. split; [apply irng_eqb|]; exact eq_refl.
  - pose proof (draws_inv frng_next frng_ok f_unit n1 _ frng_next_ok (frng_init_ok seed1)) as [_ Ha]. fold a in Ha.
    pose proof (draws_inv frng_next frng_ok f_unit n2 _ frng_next_ok (frng_init_ok seed2)) as [_ Hb]. fold b in Hb.
    clearbody a b. rewrite (assign_id _ _ (proj1 Ha)). split; [exact (frng_eqb_draws a b m Ha Hb)|]. split; [exact (frng_eqb_refl a Ha)|exact eq_refl].
Qed.
Print Assumptions C40_equal_generators.

(** the generators of mt.hpp, with any shuffle that draws from them, are an environment as assumed by all other theorems *)
Theorem C40_generators_satisfy_the_laws : forall sh l fuel b1 b2, shuffle_ok sh -> rnd_ok (mt_rnd sh l fuel b1 b2) irng_ok frng_ok.
Proof. exact mt_rnd_ok. Qed.
Print Assumptions C40_generators_satisfy_the_laws.
Example C40_a_shuffle : shuffle_ok fy_shuffle /\ (fy_shuffle (irng_init 42) 5).1 = [3; 4; 1; 0; 2]%nat.
Proof. split; [exact fy_shuffle_ok|]. vm_compute. reflexivity. Qed.

(** C41: peek gives the next draw except when the buffer is exhausted: of a freshly seeded generator it gives 0, and with seed 42 the
    first draw is 1608637542. *)
Theorem C41_peek_is_the_next_draw : forall (g : irng) (f : frng),
  (mt_index g <> 0%nat -> mt_peek 0 g = (irng_next g).1) /\ (mt_index f <> 0%nat -> mt_peek (S754_zero false) f = (frng_next f).1).
Proof. intros g f. split; [exact (peek_next 0 (fun y => y) g)|exact (peek_next (S754_zero false) frng_post f)]. Qed.
Print Assumptions C41_peek_is_the_next_draw.
Theorem C41_peek_refuted : ~ (forall seed n, let g := (draws irng_next n (irng_init seed)).2 in mt_peek 0 g = (irng_next g).1).
Proof.
  intros H. specialize (H 42 0%nat). cbn [draws snd] in H. rewrite peek_init, first_draw in H. discriminate.
Qed.
Print Assumptions C41_peek_refuted.

(** C51: the stream of draws is eight interleaved sequences, each seeded from seed + s and continued by one and the same twisted
    feedback recurrence; draw number i is the tempered word number 624 + i/8 of sequence i mod 8.  (The recurrence uses bit 27 of the
    older word where MT19937 uses bit 31.) *)
Theorem C51_integer_stream : forall seed, exists w, mt_words seed w /\
  forall n, (draws irng_next n (irng_init seed)).1 = map (fun i => mt_temper (w (i mod 8) (624 + i / 8))%nat) (seq 0 n).
Proof. exact irng_stream. Qed.
Print Assumptions C51_integer_stream.
Theorem C51_float_stream : forall seed, exists w, mt_words seed w /\
  forall n, (draws frng_next n (frng_init seed)).1 = map (fun i => frng_post (mt_temper (w (i mod 8) (624 + i / 8)))%nat) (seq 0 n).
Proof. exact frng_stream. Qed.
Print Assumptions C51_float_stream.
