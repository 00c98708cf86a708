(** * Parameter sets made by the factories can be stored: apart from a real number that is not finite, JSON keeps every value. *)
From Verif Require Import FloatFacts.
From Verif Require Export JsonProps StateFacts.
From stdpp Require Import list.
Local Open Scope Z_scope.

(** a parameter set returned by one of the two factories *)
Definition clf_made (p : params) : Prop := exists hw rd,
  (exists u, clf_typed u /\ make_classifier_params_from_args hw rd u = Ret (Right p)) \/
  (exists ms, make_classifier_params_from_json hw rd (Some (jobject ms)) = Ret (Right p)).
Definition reg_made (p : params) : Prop := exists hw rd,
  (exists u, reg_typed u /\ make_regressor_params_from_args hw rd u = Ret (Right p)) \/
  (exists ms, make_regressor_params_from_json hw rd (Some (jobject ms)) = Ret (Right p)).
Definition kinded (k : string) (v : pvalue) : Prop :=
  in_range v /\ (kind_of v = None \/ exists t, key_kind k = Some t /\ kind_of v = Some t).
Lemma key_kind_seed k : key_kind k = Some KindSeed -> k = "random_state"%string.
Proof.
  unfold key_kind. destruct (_ || _ || _ || _ || _ || _ || _ || _)%string; [done|].
  destruct (k =? "random_state")%string eqn:E; [intros _; by apply String.eqb_eq|].
  destruct (_ || _)%string; [done|]. destruct (_ || _ || _)%string; [done|]. by destruct (_ || _)%string.
Qed.
Lemma kinded_storable k v : kinded k v -> storable k v.
Proof.
  intros [H [Hk|(t & H1 & H2)]]; destruct v; cbn in *; try done; injection H2 as <-.
  - split; [done|]. intros ->. discriminate H1.
  - split; [done|]. by apply key_kind_seed.
Qed.
Lemma key_kind_real k : key_kind k = Some KindReal -> k = "s"%string \/ k = "loss_fn_C1"%string.
Proof.
  unfold key_kind. destruct (_ || _ || _ || _ || _ || _ || _ || _)%string; [done|].
  destruct (k =? "random_state")%string; [done|].
  destruct (k =? "s")%string eqn:E1; [left; by apply String.eqb_eq|].
  destruct (k =? "loss_fn_C1")%string eqn:E2; [right; by apply String.eqb_eq|].
  cbn [orb]. destruct (_ || _ || _)%string; [done|]. by destruct (_ || _)%string.
Qed.
(** the coefficient of the loss function, if it is there, is finite *)
Definition finite_C1 (p : params) : Prop := forall x, p !! "loss_fn_C1"%string = Some (PReal x) -> is_finite_sf x = true.
Lemma made_storable p s : (forall k v, p !! k = Some v -> k <> "n_jobs"%string -> k <> "random_state"%string -> kinded k v) ->
  (exists n, 1 <= n <= int_max /\ p !! "n_jobs"%string = Some (PInt n)) ->
  (exists z, 0 <= z < 4294967296 /\ p !! "random_state"%string = Some (PSeed z)) -> P_s p = Ret s -> s_valid s = true ->
  storable_params p /\ (finite_C1 p -> finite_reals p).
Proof.
  intros Hk (n & Hn & En) (z & Hz & Ez) Es Hs. split.
  - intros k v E. destruct (decide (k = "n_jobs"%string)) as [->|N1].
    { rewrite En in E. injection E as <-. split; [|done]. unfold is_int, int_min, int_max in *. lia. }
    destruct (decide (k = "random_state"%string)) as [->|N2]; [rewrite Ez in E; injection E as <-; done|].
    by apply kinded_storable, Hk.
  - intros HC k x E. destruct (decide (k = "n_jobs"%string)) as [->|N1]; [rewrite En in E; discriminate E|].
    destruct (decide (k = "random_state"%string)) as [->|N2]; [rewrite Ez in E; discriminate E|].
    destruct (Hk _ _ E N1 N2) as [_ [|(t & H1 & H2)]]; [done|]. injection H2 as <-. apply key_kind_real in H1 as [->| ->]; [|by apply HC].
    apply at_real_inv in Es. rewrite Es in E. injection E as <-. unfold s_valid in Hs. by apply andb_true_iff in Hs as [? _].
Qed.
Ltac kd := split; [cbn; done|first [by left|right; eexists; split; reflexivity]].
Lemma clf_args_kinded u : clf_typed u -> map_Forall kinded (clf_args_params u).
Proof.
  intros []. unfold clf_args_params. repeat (match goal with |- map_Forall _ (insert _ _ _) => apply map_Forall_insert_2 end); try kd.
  - destruct (ca_seed u); kd.
  - split; [by destruct (ca_boost u)|]. right. by eexists.
Qed.
Lemma reg_args_kinded u : reg_typed u -> map_Forall kinded (reg_args_params u).
Proof.
  intros []. unfold reg_args_params. repeat (match goal with |- map_Forall _ (insert _ _ _) => apply map_Forall_insert_2 end); try kd.
  - destruct (ra_seed u); kd.
  - split; [by destruct (ra_boost u)|]. right. by eexists.
Qed.

Lemma clf_defaults_kinded : map_Forall kinded default_classifier_params.
Proof.
  unfold default_classifier_params. cbn [list_to_map foldr uncurry fst snd].
  repeat (match goal with |- map_Forall _ (insert _ _ _) => apply map_Forall_insert_2 end); [kd..|apply map_Forall_empty].
Qed.
Lemma reg_defaults_kinded : map_Forall kinded default_regressor_params.
Proof.
  unfold default_regressor_params. cbn [list_to_map foldr uncurry fst snd].
  repeat (match goal with |- map_Forall _ (insert _ _ _) => apply map_Forall_insert_2 end); [kd..|apply map_Forall_empty].
Qed.


Lemma clf_created_fixed a p : clf_created a p -> (exists n, 1 <= n <= int_max /\ p !! "n_jobs"%string = Some (PInt n)) /\
  (exists z, 0 <= z < 4294967296 /\ p !! "random_state"%string = Some (PSeed z)).
Proof.
  intros [[Ht _ Hj] Hh _]. split.
  - exists (ca_n_jobs a). split; [|apply at_int_inv, Hh]. destruct Ht. unfold is_int in *. lia.
  - destruct (ch_seed _ _ Hh) as (z & Ez & E). exists z. split; [|by apply at_seed_inv]. destruct Ht. rewrite Ez in ct_seed. exact ct_seed.
Qed.
Lemma reg_created_fixed a p : reg_created a p -> (exists n, 1 <= n <= int_max /\ p !! "n_jobs"%string = Some (PInt n)) /\
  (exists z, 0 <= z < 4294967296 /\ p !! "random_state"%string = Some (PSeed z)).
Proof.
  intros [[Ht _ Hj] Hh]. split.
  - exists (ra_n_jobs a). split; [|apply at_int_inv, Hh]. destruct Ht. unfold is_int in *. lia.
  - destruct (rh_seed _ _ Hh) as (z & Ez & E). exists z. split; [|by apply at_seed_inv]. destruct Ht. rewrite Ez in rt_seed. exact rt_seed.
Qed.

Lemma clf_made_facts p : clf_made p -> (exists a, clf_created a p) /\ storable_params p /\ (finite_C1 p -> finite_reals p).
Proof.
  intros (hw & rd & [(u & Hu & E)|(ms & E)]).
  - pose proof (clf_factory_created hw rd u p Hu E) as Hc. split; [by eexists|].
    destruct (clf_factory_preserves hw rd u p Hu E) as (Hk & _). destruct (clf_created_fixed _ _ Hc) as [Hn Hs].
    eapply (made_storable p); try done; [|apply (ch_s _ _ (cc_has _ _ Hc))|by destruct (cc_valid _ _ Hc) as [_ [] _]]. intros k v Ek N1 N2. rewrite Hk in Ek by done. by apply (clf_args_kinded u Hu k v).
  - rewrite jobject_members in E. change (clf_doc hw rd (members ms) = Ret (Right p)) in E.
    destruct (obj_cases hw rd (clf_doc hw rd) ms (or_introl eq_refl)) as [[Hf _]|(k & v & _ & _ & Q)];
      [|destruct Q as [[_ Q]|[(t & _ & _ & Q)|(t & _ & _ & Q)]]; rewrite Q in E; discriminate E].
    destruct (clf_doc_fine hw rd _ (members_sorted ms) Hf) as (p0 & E0 & Hw & _ & [(_ & _ & p1 & E1 & Hc & Hk)|[_ Q]]); [|rewrite Q in E; discriminate E].
    rewrite E in E1. injection E1 as <-. split; [by eexists|]. destruct (clf_created_fixed _ _ Hc) as [Hn Hs].
    destruct (collected _ (members_sorted ms) Hf) as (p2 & E2 & _ & Hr & _). rewrite E0 in E2. injection E2 as <-.
    eapply (made_storable p); try done; [|apply (ch_s _ _ (cc_has _ _ Hc))|by destruct (cc_valid _ _ Hc) as [_ [] _]]. intros k v Ek N1 N2. rewrite Hk in Ek by done. destruct (p0 !! k) as [v0|] eqn:Ek0.
    + injection Ek as <-. split; [by eapply Hr|]. right. by apply Hw.
    + by apply (clf_defaults_kinded k v).
Qed.
Lemma reg_made_facts p : reg_made p -> (exists a, reg_created a p) /\ storable_params p /\ (finite_C1 p -> finite_reals p).
Proof.
  intros (hw & rd & [(u & Hu & E)|(ms & E)]).
  - pose proof (reg_factory_created hw rd u p Hu E) as Hc. split; [by eexists|].
    destruct (reg_factory_preserves hw rd u p Hu E) as (Hk & _). destruct (reg_created_fixed _ _ Hc) as [Hn Hs].
    eapply (made_storable p); try done; [|apply (rh_s _ _ (rc_has _ _ Hc))|by destruct (rc_valid _ _ Hc) as [_ [] _]]. intros k v Ek N1 N2. rewrite Hk in Ek by done. by apply (reg_args_kinded u Hu k v).
  - rewrite jobject_members in E. change (reg_doc hw rd (members ms) = Ret (Right p)) in E.
    destruct (obj_cases hw rd (reg_doc hw rd) ms (or_intror eq_refl)) as [[Hf _]|(k & v & _ & _ & Q)];
      [|destruct Q as [[_ Q]|[(t & _ & _ & Q)|(t & _ & _ & Q)]]; rewrite Q in E; discriminate E].
    destruct (reg_doc_fine hw rd _ (members_sorted ms) Hf) as (p0 & E0 & Hw & _ & [(_ & _ & p1 & E1 & Hc & Hk)|[_ Q]]); [|rewrite Q in E; discriminate E].
    rewrite E in E1. injection E1 as <-. split; [by eexists|]. destruct (reg_created_fixed _ _ Hc) as [Hn Hs].
    destruct (collected _ (members_sorted ms) Hf) as (p2 & E2 & _ & Hr & _). rewrite E0 in E2. injection E2 as <-.
    eapply (made_storable p); try done; [|apply (rh_s _ _ (rc_has _ _ Hc))|by destruct (rc_valid _ _ Hc) as [_ [] _]]. intros k v Ek N1 N2. rewrite Hk in Ek by done. destruct (p0 !! k) as [v0|] eqn:Ek0.
    + injection Ek as <-. split; [by eapply Hr|]. right. by apply Hw.
    + by apply (reg_defaults_kinded k v).
Qed.
