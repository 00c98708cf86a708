(** * Property theorems about estimator objects: C55 (clones, moves, lifetime), C56 (read_params).
    Reading guide: [execs] (Objects.v) runs a program of object commands on pointers and a heap of states; [alloc] is where operator new
    puts a state, any function returning an unused address.  [vrun] (ObjectSpec.v) is the specification: every variable holds an
    estimator value of its own and nothing is shared.  [holds w x] is the estimator variable [x] refers to.
    [cstep]/[rstep] are the member functions (fit, partial_fit, predict, ...), [cstate]/[rstate] saving and loading a state. *)
From Verif Require Import ObjectProps StateFacts StateProps HistFacts Reach ToyTrain ToyDefects PropsState.
From stdpp Require Import gmap stringmap list.
Local Open Scope Z_scope.

(** to_json_string (None) and from_json_string (Some document) *)
Definition save_load {E} (save : E -> outcome json) (load : E -> json -> outcome E) (e : E) (o : option json) : outcome (option json * E) :=
  match o with
  | None => let* j := save e in Ret (Some j, e)
  | Some j => let* e := load e j in Ret (None, e)
  end.

(** ** C55: a program over any number of estimators behaves as if each variable held its own estimator; no state is shared, leaked,
    used after it was freed or freed twice *)
Theorem C55_classifier_objects : forall sh l fuel b1 b2 (A : algo (mt_rnd sh l fuel b1 b2)) vw C, tsetlini_codec _ A vw C ->
  forall S alloc, (forall h, h !! alloc h = None) -> forall cs,
  match execs (construct S A) (clf_step S A) (save_load (clf_to_json C S) (clf_from_json C S)) e_params alloc world0 cs,
        vrun (construct S A) (clf_step S A) (save_load (clf_to_json C S) (clf_from_json C S)) e_params ∅ cs with
  | Ret (rs, w), Ret (rs', v) => rs = rs' /\ (forall x, holds w x = v !! x) /\ one_owner w
  | Throw a, Throw b => a = b
  | UB a, UB b => a = b
  | OutOfFuel, OutOfFuel => True
  | _, _ => False
  end.
Proof. intros. by apply programs_are_values. Qed.
Print Assumptions C55_classifier_objects.
Theorem C55_regressor_objects : forall sh l fuel b1 b2 (A : algo (mt_rnd sh l fuel b1 b2)) vw C, tsetlini_codec _ A vw C ->
  forall S alloc, (forall h, h !! alloc h = None) -> forall cs,
  match execs (construct S A) (reg_step S A) (save_load (reg_to_json C S) (reg_from_json C S)) e_params alloc world0 cs,
        vrun (construct S A) (reg_step S A) (save_load (reg_to_json C S) (reg_from_json C S)) e_params ∅ cs with
  | Ret (rs, w), Ret (rs', v) => rs = rs' /\ (forall x, holds w x = v !! x) /\ one_owner w
  | Throw a, Throw b => a = b
  | UB a, UB b => a = b
  | OutOfFuel, OutOfFuel => True
  | _, _ => False
  end.
Proof. intros. by apply programs_are_values. Qed.
Print Assumptions C55_regressor_objects.
(** an estimator and one made from its clone_state(): whatever program led to the original, and however the calls on the two are
    interleaved, each answers exactly as the original, in the state it was cloned in, would answer that one's calls alone; the cloned
    state itself stays as it was *)
Theorem C55_classifier_clone : forall sh l fuel b1 b2 (A : algo (mt_rnd sh l fuel b1 b2)) vw C, tsetlini_codec _ A vw C ->
  forall S alloc, (forall h, h !! alloc h = None) ->
  let run := execs (construct S A) (clf_step S A) (save_load (clf_to_json C S) (clf_from_json C S)) e_params alloc world0 in
  forall cs rs w x e q y os, run cs = Ret (rs, w) -> holds w x = Some e -> x <> y -> x <> q -> y <> q ->
  Forall (fun c => c.1 = x \/ c.1 = y) os ->
  (forall rs1 w1, run (cs ++ [CloneState q x; FromState y q] ++ as_cmds os) = Ret (rs1, w1) ->
     exists rs0 ex ey, rs1 = rs ++ [RVoid; RVoid] ++ map RCall rs0 /\ length rs0 = length os /\
       clf_run S A e (part x os) = Ret (part x (zip (map fst os) rs0), ex) /\ holds w1 x = Some ex /\
       clf_run S A e (part y os) = Ret (part y (zip (map fst os) rs0), ey) /\ holds w1 y = Some ey /\ holds w1 q = Some e) /\
  ((exists r, clf_run S A e (part x os) = Ret r) -> (exists r, clf_run S A e (part y os) = Ret r) ->
     exists r, run (cs ++ [CloneState q x; FromState y q] ++ as_cmds os) = Ret r).
Proof. intros sh l fuel b1 b2 A vw C _ S alloc Ha run cs rs w x e q y os. exact (clones_apart _ _ _ _ alloc Ha cs rs w x e q y os). Qed.
Print Assumptions C55_classifier_clone.
Theorem C55_regressor_clone : forall sh l fuel b1 b2 (A : algo (mt_rnd sh l fuel b1 b2)) vw C, tsetlini_codec _ A vw C ->
  forall S alloc, (forall h, h !! alloc h = None) ->
  let run := execs (construct S A) (reg_step S A) (save_load (reg_to_json C S) (reg_from_json C S)) e_params alloc world0 in
  forall cs rs w x e q y os, run cs = Ret (rs, w) -> holds w x = Some e -> x <> y -> x <> q -> y <> q ->
  Forall (fun c => c.1 = x \/ c.1 = y) os ->
  (forall rs1 w1, run (cs ++ [CloneState q x; FromState y q] ++ as_cmds os) = Ret (rs1, w1) ->
     exists rs0 ex ey, rs1 = rs ++ [RVoid; RVoid] ++ map RCall rs0 /\ length rs0 = length os /\
       reg_run S A e (part x os) = Ret (part x (zip (map fst os) rs0), ex) /\ holds w1 x = Some ex /\
       reg_run S A e (part y os) = Ret (part y (zip (map fst os) rs0), ey) /\ holds w1 y = Some ey /\ holds w1 q = Some e) /\
  ((exists r, reg_run S A e (part x os) = Ret r) -> (exists r, reg_run S A e (part y os) = Ret r) ->
     exists r, run (cs ++ [CloneState q x; FromState y q] ++ as_cmds os) = Ret r).
Proof. intros sh l fuel b1 b2 A vw C _ S alloc Ha run cs rs w x e q y os. exact (clones_apart _ _ _ _ alloc Ha cs rs w x e q y os). Qed.
Print Assumptions C55_regressor_clone.
(** a moved-from estimator must not be used: any member function called on it dereferences a null pointer *)
Theorem C55_moved_from_classifier : forall sh l fuel b1 b2 (A : algo (mt_rnd sh l fuel b1 b2)) vw C, tsetlini_codec _ A vw C ->
  forall S alloc, (forall h, h !! alloc h = None) ->
  let run := execs (construct S A) (clf_step S A) (save_load (clf_to_json C S) (clf_from_json C S)) e_params alloc world0 in
  forall cs rs w x y c, run cs = Ret (rs, w) -> x <> y -> uses y c -> run (cs ++ [Move x y; c]) = UB EmptyDeref.
Proof. intros sh l fuel b1 b2 A vw C _ S alloc Ha run cs rs w x y c E Hxy Hu. refine (gone _ _ _ _ alloc Ha cs rs w y (Move x y) c E _ Hu). left. by exists x. Qed.
Print Assumptions C55_moved_from_classifier.
Theorem C55_moved_from_regressor : forall sh l fuel b1 b2 (A : algo (mt_rnd sh l fuel b1 b2)) vw C, tsetlini_codec _ A vw C ->
  forall S alloc, (forall h, h !! alloc h = None) ->
  let run := execs (construct S A) (reg_step S A) (save_load (reg_to_json C S) (reg_from_json C S)) e_params alloc world0 in
  forall cs rs w x y c, run cs = Ret (rs, w) -> x <> y -> uses y c -> run (cs ++ [Move x y; c]) = UB EmptyDeref.
Proof. intros sh l fuel b1 b2 A vw C _ S alloc Ha run cs rs w x y c E Hxy Hu. refine (gone _ _ _ _ alloc Ha cs rs w y (Move x y) c E _ Hu). left. by exists x. Qed.
Print Assumptions C55_moved_from_regressor.

(** ** C56: read_params returns the parameters the factory made, plus number_of_labels and number_of_features once fitted *)
Theorem C56_classifier : forall (R : rnd) g_ok f_ok (S : sch) (A : algo R) (vw : aview A) a p os rs e,
  rnd_ok R g_ok f_ok -> sch_ok S -> tsetlini_algo R A vw -> clf_created a p -> clf_history S A vw p os rs e ->
  e_params e = match clf_dims_of os rs with
               | None => p
               | Some (L, nf) => <["number_of_features" := PInt (Z.of_nat nf)]> (<["number_of_labels" := PInt (Z.of_nat L)]> p)
               end%string.
Proof.
  intros * HR HS HA Hc Hh. destruct (clf_hist_laws g_ok f_ok HR A vw HA a (cc_valid _ _ Hc)) as (I & Ea & Eb & E2 & Lw).
  pose proof (clf_history_at g_ok f_ok HR S HS A vw _ _ I Ea Eb E2 Lw a p os rs e Hc eq_refl eq_refl Hh) as H. unfold clf_at in H.
  destruct (clf_dims_of os rs) as [[L nf]|]; [exact (proj2 H)|by rewrite H].
Qed.
Print Assumptions C56_classifier.
Theorem C56_regressor : forall (R : rnd) g_ok f_ok (S : sch) (A : algo R) (vw : aview A) a p os rs e,
  rnd_ok R g_ok f_ok -> sch_ok S -> tsetlini_algo R A vw -> reg_created a p -> reg_history S A vw p os rs e ->
  e_params e = match reg_dims_of os rs with
               | None => p
               | Some nf => <["number_of_features" := PInt (Z.of_nat nf)]> p
               end%string.
Proof.
  intros * HR HS HA Hc Hh. destruct (reg_hist_laws g_ok f_ok HR A vw HA a (rc_valid _ _ Hc)) as (I & Ea & Eb & E2 & Lw).
  pose proof (reg_history_at g_ok f_ok HR S HS A vw _ _ I Ea Eb E2 Lw a p os rs e Hc eq_refl eq_refl Hh) as H. unfold reg_at in H.
  destruct (reg_dims_of os rs) as [nf|]; [exact (proj2 H)|by rewrite H].
Qed.
Print Assumptions C56_regressor.

(** ** Examples: a regressor is fitted and cloned; the clone is trained further, the original is moved; both answer; the heap ends with
    three states, and after destruction of all variables it is empty *)
Definition ex_alloc {E} (h : gmap Z E) : Z := fresh (dom h).
Lemma ex_alloc_ok {E} (h : gmap Z E) : h !! ex_alloc h = None.
Proof. apply not_elem_of_dom. apply is_fresh. Qed.
Definition ex_run := execs (construct toy_sch CM) (reg_step toy_sch CM) (save_load (reg_to_json classic_codec toy_sch) (reg_from_json classic_codec toy_sch)) e_params
  (ex_alloc (E := est (a_pol CM) (eS toy_sch) (eG mt42) (eF mt42))) world0.
Definition ex_prog1 : list (cmd (reg_op CM) (option json)) := [Create "a" toy_reg_params; Call "a" (RFit CM toy_X toy_ry 2)]%string.
Definition ex_calls : list (string * reg_op CM) :=
  [("a", RPredict CM toy_X); ("b", RPartialFit CM (take 2 toy_X) (take 2 toy_ry) 5); ("a", RPredict CM toy_X); ("b", RPredict CM toy_X)]%string.
Definition ex_prog2 := ex_prog1 ++ [CloneState "q" "a"; FromState "b" "q"]%string ++ as_cmds ex_calls.
Definition ex_seen (r : outcome (list (cres reg_res (option json)) * world (est (a_pol CM) (eS toy_sch) (eG mt42) (eF mt42)))) :=
  match r with Ret (rs, w) => Some (rs, size (w_heap w)) | _ => None end.
Example C55_example : ex_seen (ex_run ex_prog2) = Some ([RVoid; RCall (RRStatus S_OK); RVoid; RVoid; RCall (RRResps (Right [0; 0; 2; 2]));
  RCall (RRStatus S_OK); RCall (RRResps (Right [0; 0; 2; 2])); RCall (RRResps (Right [0; 0; 3; 3]))], 3%nat).
Proof. vm_compute. reflexivity. Qed.
(** the hypotheses of the clone theorem hold after the first two commands *)
Example C55_example_clone : exists rs w e, ex_run ex_prog1 = Ret (rs, w) /\ holds w "a"%string = Some e /\ Forall (fun c => c.1 = "a"%string \/ c.1 = "b"%string) ex_calls.
Proof.
  assert (match ex_run ex_prog1 with Ret (rs, w) => match holds w "a"%string with Some e => nm_rows (ta_matrix (e_ta e)) | None => 0%nat end | _ => 0%nat end = 4%nat)
    as H by (vm_compute; reflexivity).
  destruct (ex_run ex_prog1) as [[rs w]| | |]; try discriminate H. exists rs, w. destruct (holds w "a"%string) as [e|]; [|discriminate H]. exists e.
  split; [reflexivity|]. split; [reflexivity|]. repeat (apply Forall_cons; split; [cbn; tauto|]). apply Forall_nil. exact Logic.I.
Qed.
(** moving, reading the parameters, destroying *)
Example C55_example_move : ex_seen (ex_run (ex_prog1 ++ [Move "c"%string "a"%string; ReadParams "c"%string; Destroy "a"%string; Destroy "c"%string])) =
  Some ([RVoid; RCall (RRStatus S_OK); RVoid; RParams (<["number_of_features"%string := PInt 3]> toy_reg_params); RVoid; RVoid], 0%nat).
Proof. vm_compute. reflexivity. Qed.
(** C56: the hypotheses are met by an estimator fitted to two labels of three features *)
Example C56_example : exists e, clf_created toy_a toy_clf_params /\
  clf_history toy_sch CL (cl_view toy) toy_clf_params (toy_clf_ops CL toy_X) (toy_clf_res [0; 1; 0; 0] [0; 1; 1; 0]) e /\
  clf_dims_of (toy_clf_ops CL toy_X) (toy_clf_res [0; 1; 0; 0] [0; 1; 1; 0]) = Some (2%nat, 3%nat) /\
  e_params e !! "number_of_labels"%string = Some (PInt 2).
Proof.
  destruct toy_classic_clf as [e H]. exists e. split; [exact toy_clf_created|]. split; [exact H|]. split; [apply toy_classic_clf_dims|].
  rewrite (C56_classifier toy toy_g toy_f toy_sch CL (cl_view toy) toy_a toy_clf_params _ _ e toy_ok toy_sch_ok (algo_classic toy) toy_clf_created H).
  rewrite toy_classic_clf_dims. rewrite lookup_insert_ne by discriminate. apply lookup_insert.
Qed.
