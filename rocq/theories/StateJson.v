(** * Model of lib/src/tsetlini_state_json.cpp: saving an estimator to JSON and loading it back.  Proofs are elsewhere.

    The text in between (js.dump(), json::parse) is modelled in JsonText.v; what it does to a value is [reparse]. *)
From Verif Require Export Json Estimator Mt.
From stdpp Require Import list.
Local Open Scope Z_scope.

(** Contract of dump() followed by parse(), json.hpp serializer::dump (17935-), lexer::scan_number, parser:
    - an integer without a minus sign is read back as number_unsigned;
    - a finite double is written with enough digits (Grisu2) and read back (strtod) as the same double, still a number_float;
    - dump_float writes a NaN or an infinity as null;
    - everything else is read back as it was.
    That the model of the text layer fulfils this contract for every value whose strings are UTF-8 is DumpProps.parse_dump. *)
Fixpoint reparse (j : json) : json :=
  match j with
  | JInt z => if z <? 0 then JInt z else JUns z
  | JFlt x => if is_finite_sf x then JFlt x else JNull
  | JArr l => JArr (map reparse l)
  | JObj l => JObj (map (fun '(k, v) => (k, reparse v)) l)
  | JNull | JBool _ | JUns _ | JStr _ => j
  end.

(** ** Reading values, json.hpp *)
(** double -> unsigned / signed integer of a given range: truncation, UB when not representable *)
Definition trunc_in (lo hi : Z) (x : spec_float) : outcome Z :=
  match x with
  | S754_zero _ => Ret 0
  | S754_finite s m e => let z := trunc_pair s m e in if (lo <=? z) && (z <=? hi) then Ret z else UB FloatToInt
  | _ => UB FloatToInt
  end.
(** j.get<std::size_t>(), j.get<std::uint64_t>() *)
Definition j_u64 (j : json) : outcome Z :=
  match j with
  | JInt z | JUns z => Ret (z mod 18446744073709551616)
  | JFlt x => trunc_in 0 18446744073709551615 x
  | JBool b => Ret (b2Z b)
  | _ => Throw JsonTypeError
  end.
(** j.get<intW_t>() for W = 8, 16, 32 *)
Definition j_sint (w : Z) (j : json) : outcome Z :=
  match j with
  | JInt z | JUns z => Ret (wrap_s w z)
  | JFlt x => trunc_in (- 2 ^ (w - 1)) (2 ^ (w - 1) - 1) x
  | JBool b => Ret (b2Z b)
  | _ => Throw JsonTypeError
  end.
(** j.get_to(std::vector<T> &): type_error 302 unless an array *)
Definition j_vec {A} (rd : json -> outcome A) (j : json) : outcome (list A) :=
  match j with JArr l => Base.omap rd l | _ => Throw JsonTypeError end.
(** j.size() *)
Definition j_size (j : json) : nat :=
  match j with JNull => 0 | JArr l => length l | JObj l => length l | _ => 1 end.
(** const operator[](size_type): type_error 305 unless an array; an index past the end is undefined (json.hpp, "undefined behavior") *)
Definition j_index (j : json) (i : nat) : outcome json :=
  match j with JArr l => vget l i | _ => Throw JsonTypeError end.
(** the values between j.cbegin() and j.cend() *)
Definition j_elements (j : json) : list json :=
  match j with JNull => [] | JArr l => l | JObj l => map snd l | _ => [j] end.

(** ** Generators, tsetlini_state_json.cpp:20-63 *)
(** 20-26, 43-49 to_json: index, the MTSZ * NS words at RESp() and at MTp() *)
Definition mt_to_json {V} (wr : V -> json) (g : mt_state V) : json :=
  jobject [("index", JUns (Z.of_nat (mt_index g))); ("RES", JArr (map wr (mt_res g))); ("MT", JArr (map JUns (mt_mt g)))]%string.
(** std::copy of a vector to the start of a buffer of MTSZ * NS elements; a longer vector is taken to be out of bounds
    (the buffers have a few surplus elements for alignment, so this counts a little more as undefined than the code does) *)
Definition copy_to {A} (src dst : list A) : outcome (list A) :=
  if decide (length src <= length dst)%nat then Ret (src ++ drop (length src) dst) else UB OutOfBounds.
(** 29-40, 52-63 from_json, into a default constructed (seed 1) generator: js.at(..).get<IRNG>() *)
Definition mt_from_json {V} (zero : V) (rd : json -> outcome V) (j : json) : outcome (mt_state V) :=
  let p := mt_init zero 1 in
  let* ji := j_at j "index" in
  let* index := j_u32 ji in
  let* jr := j_at j "RES" in
  let* res := j_vec rd jr in
  let* res := copy_to res (mt_res p) in
  let* jm := j_at j "MT" in
  let* mt := j_vec j_u32 jm in
  let* mt := copy_to mt (mt_mt p) in
  Ret (MTS (Z.to_nat index) res mt).
(** IRNG words are unsigned int, FRNG results are float (stored as double) *)
Definition irng_to_json : irng -> json := mt_to_json JUns.
Definition frng_to_json : frng -> json := mt_to_json (fun x => JFlt (f64_of_f32 x)).
Definition irng_from_json : json -> outcome irng := mt_from_json 0 j_u32.
Definition frng_from_json : json -> outcome frng := mt_from_json (S754_zero false) j_f32.

(** ** Matrices, 66-160 *)
(** 66-95: width in bytes; one array per row, of the first nc cells *)
Definition nm_to_json (m : nmatrix) : outcome json :=
  let* rows := Base.omap (fun r => let* row := Base.omap (nm_get m r) (seq 0 (nm_cols m)) in Ret (JArr (map JInt row))) (seq 0 (nm_rows m)) in
  Ret (jobject [("width", JUns (nm_w m / 8)); ("data", JArr rows)]%string).
(** std::copy(first, last, row_data(rit)): successive cells, converted to the value type *)
Fixpoint write_row (m : nmatrix) (r c : nat) (l : list json) : outcome nmatrix :=
  match l with
  | [] => Ret m
  | j :: l => let* v := j_sint (nm_w m) j in let* m := nm_set m r c v in write_row m r (S c) l
  end.
(** 98-130.  nr and nc are std::size_t, passed to the constructor as unsigned int; a document of 2^32 rows is not considered. *)
Definition nm_from_json (j : json) : outcome nmatrix :=
  let* jw := j_at j "width" in
  let* width := j_u64 jw in
  let* jd := j_at j "data" in
  let nr := j_size jd in
  let* row0 := j_index jd 0 in
  let nc := j_size row0 in
  let p := nm_new (if width =? 1 then 8 else if width =? 2 then 16 else 32) nr nc in
  ofor 0 nr p (fun rit p => let* row := j_index jd rit in write_row p rit 0 (j_elements row)).
(** 133-143 bit_matrix: shape and all blocks, padding included *)
Definition bm_to_json (m : bmatrix) : json :=
  jobject [("rows", JUns (Z.of_nat (bm_rows m))); ("cols", JUns (Z.of_nat (bm_cols m)));
           ("data", JArr (map (fun b => JUns (Z.of_N b)) (bm_data m)))]%string.
(** 146-160 *)
Definition bm_from_json (j : json) : outcome bmatrix :=
  let* jr := j_at j "rows" in
  let* rows := j_u32 jr in
  let* jc := j_at j "cols" in
  let* cols := j_u32 jc in
  let p := bm_new 64 (Z.to_nat rows) (Z.to_nat cols) in
  let* jd := j_at j "data" in
  let* data := j_vec j_u64 jd in
  Ret (BM (bm_rows p) (bm_cols p) (bm_row_blocks p) (map Z.to_N data)).

(** ** Learning state, 166-201: matrix and weights; the bitwise one also has the polarity *)
Record pol_codec (P : Type) := PolCodec {
  pc_algo : string; pc_write : P -> list (string * json); pc_read : json -> outcome P }.
Arguments PolCodec {P}. Arguments pc_algo {P}. Arguments pc_write {P}. Arguments pc_read {P}.
Definition classic_codec : pol_codec unit := PolCodec "classic" (fun _ => []) (fun _ => Ret tt).
Definition bitwise_codec : pol_codec bmatrix :=
  PolCodec "bitwise" (fun p => [("polarity", bm_to_json p)]%string) (fun j => let* v := j_at j "polarity" in bm_from_json v).
Definition ta_to_json {P} (C : pol_codec P) (s : tastate P) : outcome json :=
  let* m := nm_to_json (ta_matrix s) in
  Ret (jobject (("matrix", m) :: ("weights", JArr (map JUns (ta_weights s))) :: pc_write C (ta_pol s))%string).
Definition ta_from_json {P} (C : pol_codec P) (j : json) : outcome (tastate P) :=
  let* jm := j_at j "matrix" in
  let* m := nm_from_json jm in
  let* jw := j_at j "weights" in
  let* ws := j_vec j_u32 jw in
  let* p := pc_read C j in
  Ret (TA m ws p).

(** ** Parameters, 211-274 *)
Definition pv_to_json (v : pvalue) : json :=
  match v with
  | PInt z => JInt z
  | PSeed z => JUns z
  | PReal x => JFlt (f64_of_f32 x)
  | PBool b => JBool b
  | PStr s => JStr s
  | PNone => JNull
  end.
(** 247-273; an array or an object leaves the default constructed variant, int 0 *)
Definition pv_from_json (j : json) : outcome pvalue :=
  match j with
  | JBool b => Ret (PBool b)
  | JUns z => let* z := j_u32 j in Ret (PSeed z)
  | JFlt x => let* x := j_f32 j in Ret (PReal x)
  | JInt z => let* z := j_int j in Ret (PInt z)
  | JStr s => Ret (PStr s)
  | JNull => Ret PNone
  | JArr _ | JObj _ => Ret (PInt 0)
  end.
Definition params_to_json (p : params) : json := jobject (map (fun '(k, v) => (k, pv_to_json v)) (map_to_list p)).
Fixpoint members_read (l : list (string * json)) : outcome params :=
  match l with
  | [] => Ret ∅
  | (k, v) :: l => let* v := pv_from_json v in let* p := members_read l in Ret (<[k := v]> p)
  end.
(** j.get<params_t>(): type_error 302 unless an object *)
Definition params_from_json (j : json) : outcome params :=
  match j with JObj l => members_read l | _ => Throw JsonTypeError end.
(** 308-322 (and 353-367, 398-412, 443-457): every unsigned parameter except random_state becomes an int again *)
Definition recast (k : string) (v : pvalue) : pvalue :=
  match v with
  | PSeed z => if (k =? "random_state")%string then v else PInt (wrap_s 32 z)
  | _ => v
  end.
Definition recast_params (p : params) : params := map_imap (fun k v => Some (recast k v)) p.

(** ** Estimators, 283-460: to_json_string and from_json_string of the four state types *)
Section Estimators.
  Context {P : Type} (C : pol_codec P) (S : sch).
  Notation est := (est P (eS S) irng frng).

  Definition to_json (kind : string) (e : est) : outcome json :=
    let* ta := ta_to_json C (e_ta e) in
    Ret (jobject [("estimator", JStr kind); ("algo", JStr (pc_algo C)); ("ta_state", ta); ("igen", irng_to_json (e_igen e));
                  ("fgen", frng_to_json (e_fgen e)); ("params", params_to_json (e_params e))]%string).
  (** [js] is what json::parse made of the text.  The members are assigned one by one; only the final state of a load that returns
      is modelled, not how far one that throws had come. *)
  Definition from_json (reset : params -> cache (eS S) -> outcome (cache (eS S))) (e : est) (js : json) : outcome est :=
    let* ji := j_at js "igen" in
    let* igen := irng_from_json ji in
    let* jf := j_at js "fgen" in
    let* fgen := frng_from_json jf in
    let* jt := j_at js "ta_state" in
    let* ta := ta_from_json C jt in
    let* jp := j_at js "params" in
    let* p := params_from_json jp in
    let p := recast_params p in
    let* c := reset p (e_cache e) in
    Ret (Est p ta c (mt_assign igen) (mt_assign fgen)).

  Definition clf_to_json : est -> outcome json := to_json "classifier".
  Definition reg_to_json : est -> outcome json := to_json "regressor".
  Definition clf_from_json : est -> json -> outcome est := from_json (clf_cache_reset S).
  Definition reg_from_json : est -> json -> outcome est := from_json (reg_cache_reset S).
End Estimators.
