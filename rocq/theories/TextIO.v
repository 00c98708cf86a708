(** * Model of the functions that take or return JSON as text: the state functions and the parameter factories, on top of the text layer
      (JsonText.v) and of the functions on documents (StateJson.v, LoadState.v, Json.v).  Proofs are elsewhere. *)
From Verif Require Export JsonText StateJson LoadState.
Local Open Scope Z_scope.

(** json::parse(text): the document, or an exception (parse_error; out_of_range for a number too large) *)
Definition parse_json (t : list Z) : outcome json :=
  let* r := parse t in match r with Some j => Ret j | None => Throw JsonParseError end.

Section State.
  Context {P : Type} (C : pol_codec P) (S : sch).
  Notation est := (est P (eS S) irng frng).
  (** tsetlini_state_json.cpp:283-296, 329-341, 374-386, 419-431 to_json_string *)
  Definition clf_to_json_string (e : est) : outcome (list Z) := let* j := clf_to_json C S e in dump j.
  Definition reg_to_json_string (e : est) : outcome (list Z) := let* j := reg_to_json C S e in dump j.
  (** 299-325, 344-370, 389-415, 434-460 from_json_string *)
  Definition clf_from_json_string (e : est) (t : list Z) : outcome est := let* js := parse_json t in clf_from_json C S e js.
  Definition reg_from_json_string (e : est) (t : list Z) : outcome est := let* js := parse_json t in reg_from_json C S e js.
  (** the same, with the estimator an exception leaves behind: json::parse comes before the first assignment *)
  Definition clf_load_string (e : est) (t : list Z) : outcome (option exn * est) :=
    match parse_json t with Ret js => clf_load C S e js | Throw x => Ret (Some x, e) | UB u => UB u | OutOfFuel => OutOfFuel end.
  Definition reg_load_string (e : est) (t : list Z) : outcome (option exn * est) :=
    match parse_json t with Ret js => reg_load C S e js | Throw x => Ret (Some x, e) | UB u => UB u | OutOfFuel => OutOfFuel end.
End State.

(** tsetlini_params.cpp:426-448, 507-530 with json_parse (79-91), which catches the exception *)
Definition make_classifier_params_from_text (hw rd : Z) (t : list Z) : outcome (either params) :=
  let* d := parse t in make_classifier_params_from_json hw rd d.
Definition make_regressor_params_from_text (hw rd : Z) (t : list Z) : outcome (either params) :=
  let* d := parse t in make_regressor_params_from_json hw rd d.
