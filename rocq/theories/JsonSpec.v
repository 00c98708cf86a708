(** * Specification of JSON parameter documents (C33, C34). *)
From Verif Require Import Base Floats FloatBase Params ParamFacts Json.
From Coq Require Import Reals.
From Flocq Require Import Core.
From stdpp Require Import list.
Local Open Scope Z_scope.

(** the documented keys and the kind of their values *)
Definition documented_keys : list (string * pkind) := [
  ("number_of_clauses_per_label", KindInt); ("number_of_regressor_clauses", KindInt); ("number_of_states", KindInt);
  ("boost_true_positive_feedback", KindInt); ("threshold", KindInt); ("n_jobs", KindInt); ("clause_output_tile_size", KindInt);
  ("max_weight", KindInt); ("random_state", KindSeed); ("s", KindReal); ("loss_fn_C1", KindReal); ("verbose", KindBool);
  ("box_muller", KindBool); ("weighted", KindBool); ("counting_type", KindStr); ("loss_fn", KindStr)]%string.
Definition known (k : string) : Prop := exists t, (k, t) ∈ documented_keys.

(** in the text of an object, members [ms], the key k finally has the value v *)
Definition last_member (ms : list (string * json)) (k : string) (v : json) : Prop :=
  exists ms1 ms2, ms = ms1 ++ (k, v) :: ms2 /\ k ∉ map fst ms2.

(** a JSON value correctly typed for a parameter, and the parameter value it stands for (a real number is stored as a float) *)
Inductive denotes : pkind -> json -> pvalue -> Prop :=
| den_int z : is_int z -> denotes KindInt (JInt z) (PInt z)
| den_uns z : is_int z -> denotes KindInt (JUns z) (PInt z)
| den_seed_int z : 0 <= z < 4294967296 -> denotes KindSeed (JInt z) (PSeed z)
| den_seed_uns z : 0 <= z < 4294967296 -> denotes KindSeed (JUns z) (PSeed z)
| den_real x : denotes KindReal (JFlt x) (PReal (f32_of_f64 x))
| den_real_int z : denotes KindReal (JInt z) (PReal (f32_of_Z z))
| den_real_uns z : denotes KindReal (JUns z) (PReal (f32_of_Z z))
| den_bool b : denotes KindBool (JBool b) (PBool b)
| den_str s : denotes KindStr (JStr s) (PStr s).
(** ... and a null random_state stands for no seed *)
Definition correct (k : string) (v : json) : Prop :=
  exists t, (k, t) ∈ documented_keys /\ ((exists pv, denotes t v pv) \/ (t = KindSeed /\ v = JNull)).

(** the object gives the parameter k the value pv; its value is pv when the default is d *)
Definition stated (ms : list (string * json)) (k : string) (pv : pvalue) : Prop :=
  exists t v, (k, t) ∈ documented_keys /\ last_member ms k v /\ denotes t v pv.
Definition setting (ms : list (string * json)) (k : string) (d pv : pvalue) : Prop :=
  stated ms k pv \/ ((forall q, ~ stated ms k q) /\ pv = d).
Definition seed_value (o : option Z) : pvalue := match o with Some z => PSeed z | None => PNone end.

(** the settings of a classifier / regressor described by an object, with the documented defaults *)
Definition clf_settings (ms : list (string * json)) (boost : Z) (a : clf_args) : Prop :=
  setting ms "number_of_clauses_per_label" (PInt 12) (PInt (ca_clauses a)) /\
  setting ms "number_of_states" (PInt 100) (PInt (ca_states a)) /\
  setting ms "s" (PReal (f32_of_Z 2)) (PReal (ca_s a)) /\
  setting ms "threshold" (PInt 15) (PInt (ca_threshold a)) /\
  setting ms "weighted" (PBool false) (PBool (ca_weighted a)) /\
  setting ms "max_weight" (PInt int_max) (PInt (ca_max_weight a)) /\
  setting ms "boost_true_positive_feedback" (PInt 0) (PInt boost) /\ ca_boost a = negb (boost =? 0) /\
  setting ms "n_jobs" (PInt (-1)) (PInt (ca_n_jobs a)) /\
  setting ms "verbose" (PBool false) (PBool (ca_verbose a)) /\
  setting ms "counting_type" (PStr "auto") (PStr (ca_counting a)) /\
  setting ms "clause_output_tile_size" (PInt 16) (PInt (ca_tile a)) /\
  setting ms "random_state" PNone (seed_value (ca_seed a)).
Definition reg_settings (ms : list (string * json)) (boost : Z) (a : reg_args) : Prop :=
  setting ms "number_of_regressor_clauses" (PInt 20) (PInt (ra_clauses a)) /\
  setting ms "number_of_states" (PInt 100) (PInt (ra_states a)) /\
  setting ms "s" (PReal (f32_of_Z 2)) (PReal (ra_s a)) /\
  setting ms "threshold" (PInt 15) (PInt (ra_threshold a)) /\
  setting ms "weighted" (PBool true) (PBool (ra_weighted a)) /\
  setting ms "max_weight" (PInt int_max) (PInt (ra_max_weight a)) /\
  setting ms "boost_true_positive_feedback" (PInt 0) (PInt boost) /\ ra_boost a = negb (boost =? 0) /\
  setting ms "n_jobs" (PInt (-1)) (PInt (ra_n_jobs a)) /\
  setting ms "verbose" (PBool false) (PBool (ra_verbose a)) /\
  setting ms "counting_type" (PStr "auto") (PStr (ra_counting a)) /\
  setting ms "clause_output_tile_size" (PInt 16) (PInt (ra_tile a)) /\
  setting ms "loss_fn" (PStr "MSE") (PStr (ra_loss a)) /\
  setting ms "loss_fn_C1" (PReal (S754_zero false)) (PReal (ra_C1 a)) /\
  setting ms "box_muller" (PBool false) (PBool (ra_box_muller a)) /\
  setting ms "random_state" PNone (seed_value (ra_seed a)).
Definition clf_keys : list string := ["number_of_clauses_per_label"; "number_of_states"; "s"; "threshold"; "weighted"; "max_weight";
  "boost_true_positive_feedback"; "n_jobs"; "verbose"; "counting_type"; "clause_output_tile_size"; "random_state"]%string.
Definition reg_keys : list string := ["number_of_regressor_clauses"; "number_of_states"; "s"; "threshold"; "weighted"; "max_weight";
  "boost_true_positive_feedback"; "n_jobs"; "verbose"; "counting_type"; "clause_output_tile_size"; "loss_fn"; "loss_fn_C1"; "box_muller";
  "random_state"]%string.

(** C34: values that cannot be converted to the type of a parameter.  nlohmann::json converts between numbers and booleans freely,
    so a boolean or a fraction given for an integer is converted. *)
Definition is_number (v : json) : Prop := match v with JInt _ | JUns _ | JFlt _ | JBool _ => True | _ => False end.
Definition wrong_type (t : pkind) (v : json) : Prop :=
  match t with
  | KindInt | KindReal => ~ is_number v
  | KindSeed => ~ is_number v /\ v <> JNull
  | KindBool => forall b, v <> JBool b
  | KindStr => forall s, v <> JStr s
  end.
(** a fraction whose integer part is out of the range of the integer type *)
Definition in_type (t : pkind) (z : Z) : Prop :=
  match t with KindInt => is_int z | KindSeed => 0 <= z < 4294967296 | _ => True end.
Definition unrepresentable (t : pkind) (v : json) : Prop :=
  (t = KindInt \/ t = KindSeed) /\ exists x, v = JFlt x /\ ~ (is_finite_sf x = true /\ in_type t (Ztrunc (val x))).
(** the first member, in alphabetical order of the keys, which is unknown or not convertible, is of a known key and [P] *)
Definition first_problem (ms : list (string * json)) (P : pkind -> json -> Prop) : Prop :=
  exists k t v, last_member ms k v /\ (k, t) ∈ documented_keys /\ P t v /\
    forall k' v', last_member ms k' v' -> String.compare k' k = Lt ->
      exists t', (k', t') ∈ documented_keys /\ ~ wrong_type t' v' /\ ~ unrepresentable t' v'.
