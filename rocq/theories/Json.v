(** * Model of JSON values as used by the library (nlohmann::json 3.11.2, lib/src/json/json.hpp) and of the JSON parameter factories of
      lib/src/tsetlini_params.cpp.  Proofs are elsewhere.

    A document is what json::parse makes of a text, [None] when it throws.  The text layer of the third-party library (lexer, parser, dump)
    is modelled in JsonText.v; what dump followed by parse does to a value is [reparse] (StateJson.v, proved in DumpProps.v). *)
From Verif Require Export Params.
From Coq Require Export Strings.String.
From stdpp Require Export strings gmap.
Local Open Scope Z_scope.

(** json.hpp value_t: number_integer (int64), number_unsigned (uint64), number_float (double) are distinct;
    an object is a std::map: members sorted by key, without duplicates *)
Inductive json :=
| JNull | JBool (b : bool) | JInt (z : Z) | JUns (z : Z) | JFlt (x : float64) | JStr (s : string)
| JArr (l : list json) | JObj (l : list (string * json)).

(** std::map<std::string, json>::operator[](k) = v: keys compare as unsigned chars, an existing value is replaced *)
Fixpoint obj_insert (k : string) (v : json) (l : list (string * json)) : list (string * json) :=
  match l with
  | [] => [(k, v)]
  | (k', v') :: l' =>
      match String.compare k k' with
      | Lt => (k, v) :: l
      | Eq => (k, v) :: l'
      | Gt => (k', v') :: obj_insert k v l'
      end
  end.
(** the object the parser makes of members in textual order *)
Definition jobject (ms : list (string * json)) : json := JObj (fold_left (fun l kv => obj_insert kv.1 kv.2 l) ms []).

(** member lookup *)
Fixpoint obj_find (l : list (string * json)) (k : string) : option json :=
  match l with [] => None | (k', v) :: l => if (k =? k')%string then Some v else obj_find l k end.
(** j.at(key) const: type_error 304 when not an object, out_of_range 403 when absent *)
Definition j_at (j : json) (k : string) : outcome json :=
  match j with
  | JObj l => match obj_find l k with Some v => Ret v | None => Throw JsonOutOfRange end
  | _ => Throw JsonTypeError
  end.

(** double -> float (round to nearest even; out of range gives infinity, as IEEE conversion does) *)
Definition f32_of_f64 (x : float64) : float32 :=
  match x with
  | S754_finite s m e => binary_normalize 24 128 (cond_neg s (Zpos m)) e s
  | _ => x
  end.
(** double -> int: truncation, UB when not representable *)
Definition to_i32 (x : spec_float) : outcome Z :=
  match x with
  | S754_zero _ => Ret 0
  | S754_finite s m e => let z := trunc_pair s m e in if in_i32 z then Ret z else UB FloatToInt
  | _ => UB FloatToInt
  end.
Definition b2Z (b : bool) : Z := if b then 1 else 0.

(** j.get<int>(), j.get<unsigned>(), j.get<float>(): json.hpp:4889-4932, numbers and booleans are static_cast, anything else is
    type_error 302 *)
Definition j_int (j : json) : outcome Z :=
  match j with
  | JInt z | JUns z => Ret (wrap_s 32 z)
  | JFlt x => to_i32 x
  | JBool b => Ret (b2Z b)
  | _ => Throw JsonTypeError
  end.
Definition j_u32 (j : json) : outcome Z :=
  match j with
  | JInt z | JUns z => Ret (u32 z)
  | JFlt x => to_u32 x
  | JBool b => Ret (b2Z b)
  | _ => Throw JsonTypeError
  end.
Definition j_f32 (j : json) : outcome float32 :=
  match j with
  | JInt z | JUns z => Ret (f32_of_Z z)
  | JFlt x => Ret (f32_of_f64 x)
  | JBool b => Ret (f32_of_Z (b2Z b))
  | _ => Throw JsonTypeError
  end.
(** j.get<bool>() json.hpp:4640-4647, j.get<std::string>() 4650-4657 *)
Definition j_bool (j : json) : outcome bool := match j with JBool b => Ret b | _ => Throw JsonTypeError end.
Definition j_str (j : json) : outcome string := match j with JStr s => Ret s | _ => Throw JsonTypeError end.

(** tsetlini_params.cpp:138-185, the chain of key comparisons: kind of value stored under a key, None for an unknown key *)
Inductive pkind := KindInt | KindSeed | KindReal | KindBool | KindStr.
Definition key_kind (k : string) : option pkind :=
  if (k =? "number_of_clauses_per_label")%string || (k =? "number_of_regressor_clauses")%string || (k =? "number_of_states")%string
     || (k =? "boost_true_positive_feedback")%string || (k =? "threshold")%string || (k =? "n_jobs")%string
     || (k =? "clause_output_tile_size")%string || (k =? "max_weight")%string then Some KindInt
  else if (k =? "random_state")%string then Some KindSeed
  else if (k =? "s")%string || (k =? "loss_fn_C1")%string then Some KindReal
  else if (k =? "verbose")%string || (k =? "box_muller")%string || (k =? "weighted")%string then Some KindBool
  else if (k =? "counting_type")%string || (k =? "loss_fn")%string then Some KindStr
  else None.
(** the right-hand sides: what is stored, None = nothing stored (a null random_state) *)
Definition j_value (t : pkind) (j : json) : outcome (option pvalue) :=
  match t with
  | KindInt => let* z := j_int j in Ret (Some (PInt z))
  | KindSeed => match j with JNull => Ret None | _ => let* z := j_u32 j in Ret (Some (PSeed z)) end
  | KindReal => let* x := j_f32 j in Ret (Some (PReal x))
  | KindBool => let* b := j_bool j in Ret (Some (PBool b))
  | KindStr => let* s := j_str j in Ret (Some (PStr s))
  end.
(** tsetlini_params.cpp:127-190 json_to_params: iterates the members in key order *)
Fixpoint members_to_params (l : list (string * json)) (rv : params) : outcome (either params) :=
  match l with
  | [] => Ret (Right rv)
  | (k, v) :: l =>
      match key_kind k with
      | Some t => let* o := j_value t v in members_to_params l (match o with Some pv => <[k := pv]> rv | None => rv end)
      | None => Ret (Left S_BAD_JSON)
      end
  end.
Definition json_to_params (j : json) : outcome (either params) :=
  match j with JObj l => members_to_params l ∅ | _ => Ret (Right ∅) (* not reached: assert_json_dictionary *) end.
(** 78-92 json_parse *)
Definition json_parse (doc : option json) : either json := match doc with Some j => Right j | None => Left S_BAD_JSON end.
(** 109-124 assert_json_dictionary *)
Definition assert_json_dictionary (j : json) : outcome (either json) :=
  Ret (match j with JObj _ => Right j | _ => Left S_BAD_JSON end).

(** 426-448 make_classifier_params_from_json *)
Definition make_classifier_params_from_json (hw rd : Z) (doc : option json) : outcome (either params) :=
  let* d := right_flat_map (json_parse doc) assert_json_dictionary in
  let* e := right_flat_map d json_to_params in
  let* x := right_map e (fun p => Ret (merge_params default_classifier_params p)) in
  classifier_pipeline hw rd x.
(** 507-530 make_regressor_params_from_json *)
Definition make_regressor_params_from_json (hw rd : Z) (doc : option json) : outcome (either params) :=
  let* d := right_flat_map (json_parse doc) assert_json_dictionary in
  let* e := right_flat_map d json_to_params in
  let* x := right_map e (fun p => Ret (merge_params default_regressor_params p)) in
  regressor_pipeline hw rd x.
