(** * Specification of what the library writes to its log (C81). *)
From Verif Require Export EstStep Logging.
From stdpp Require Import list.
Local Open Scope string_scope.
Local Open Scope list_scope.
Local Open Scope Z_scope.

(** ** Specification: the lines of one call *)
Definition info (text : string) (i : log_item) : log_line := Line LInfo "tsetlini-core" text i.
Definition epoch_lines (n : nat) : log := map (fun i => Line LInfo "tsetlini" "Epoch " (IInt (Z.of_nat i))) (seq 1 n).
(** the line about the chosen type: of width at least the wanted one and wide enough for [N] states, smallest unless "int32" or more is wanted *)
Definition selected_line (counting : string) (N : Z) : log_line :=
  Line LTrace "tsetlini-core" ("Selected " ++ (if width_of counting N =? 8 then "int8" else if width_of counting N =? 16 then "int16" else "int32") ++ " for ta_state") INothing.
Definition clf_header (a : clf_args) (seed : Z) (L nf : nat) : log :=
  [info "number_of_labels: " (IInt (Z.of_nat L)); info "number_of_clauses: " (IInt (Z.of_nat L * ca_clauses a));
   info "number_of_features: " (IInt (Z.of_nat nf)); info "s: " (IFloat (ca_s a)); info "number_of_states: " (IInt (ca_states a));
   info "threshold: " (IInt (ca_threshold a)); info "weighted: " (IBool (ca_weighted a))] ++
  (if ca_weighted a then [info "max_weight: " (IInt (ca_max_weight a))] else []) ++
  [info "counting_type: " (IString (ca_counting a)); info "n_jobs: " (IInt (ca_n_jobs a)); info "random_state: " (IInt seed);
   selected_line (ca_counting a) (ca_states a)].
Definition reg_header (a : reg_args) (seed : Z) (nf : nat) : log :=
  [info "number_of_clauses: " (IInt (ra_clauses a)); info "number_of_features: " (IInt (Z.of_nat nf)); info "s: " (IFloat (ra_s a));
   info "number_of_states: " (IInt (ra_states a)); info "threshold: " (IInt (ra_threshold a)); info "weighted: " (IBool (ra_weighted a))] ++
  (if ra_weighted a then [info "max_weight: " (IInt (ra_max_weight a))] else []) ++
  [info "loss_fn: " (IString (ra_loss a)); info "loss_fn(C1): " (IFloat (ra_C1 a)); info "box_muller: " (IBool (ra_box_muller a));
   info "counting_type: " (IString (ra_counting a)); info "n_jobs: " (IInt (ra_n_jobs a)); info "random_state: " (IInt seed);
   selected_line (ra_counting a) (ra_states a)].
(** [d]: labels and features before the call; [d']: after it *)
Definition clf_lines {R} {A : algo R} (a : clf_args) (seed : Z) (d d' : option (nat * nat)) (o : clf_op A) (r : clf_res) : log :=
  match ca_verbose a, o, r, d, d' with
  | true, CFit _ _ _ _ n, CRStatus S_OK, _, Some (L, nf) => clf_header a seed L nf ++ epoch_lines n
  | true, CPartialFit _ _ _ _ n, CRStatus S_OK, None, Some (L, nf) => clf_header a seed L nf ++ epoch_lines n
  | true, CPartialFit _ _ _ _ n, CRStatus S_OK, Some _, _ => epoch_lines n
  | _, _, _, _, _ => []
  end.
Definition reg_lines {R} {A : algo R} (a : reg_args) (seed : Z) (d d' : option nat) (o : reg_op A) (r : reg_res) : log :=
  match ra_verbose a, o, r, d, d' with
  | true, RFit _ _ _ n, RRStatus S_OK, _, Some nf => reg_header a seed nf ++ epoch_lines n
  | true, RPartialFit _ _ _ n, RRStatus S_OK, None, Some nf => reg_header a seed nf ++ epoch_lines n
  | true, RPartialFit _ _ _ n, RRStatus S_OK, Some _, _ => epoch_lines n
  | _, _, _, _, _ => []
  end.

(** the whole log of a history *)
Definition clf_log {R} {A : algo R} (a : clf_args) (seed : Z) (os : list (clf_op A)) (rs : list clf_res) : log :=
  (foldl (fun '(d, w) '(o, r) => (clf_dims_after d o r, w ++ clf_lines a seed d (clf_dims_after d o r) o r)) (None, []) (zip os rs)).2.
Definition reg_log {R} {A : algo R} (a : reg_args) (seed : Z) (os : list (reg_op A)) (rs : list reg_res) : log :=
  (foldl (fun '(d, w) '(o, r) => (reg_dims_after d o r, w ++ reg_lines a seed d (reg_dims_after d o r) o r)) (None, []) (zip os rs)).2.
