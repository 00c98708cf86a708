(** * Specification of JSON texts (RFC 8259), independent of the parser model: which byte sequences are JSON texts and which value
      they denote.  Bytes are numbers. *)
From Verif Require Import Base Floats FloatBase Json.
From Coq Require Import Reals.
From Flocq Require Import Core.
From stdpp Require Import list.
Local Open Scope Z_scope.

(** the string of a sequence of bytes *)
Definition str (l : list Z) : string := string_of_list_ascii (map (fun z => Ascii.ascii_of_N (Z.to_N z)) l).
Definition text (s : string) : list Z := map (fun a => Z.of_N (Ascii.N_of_ascii a)) (list_ascii_of_string s).

(** ** White space: blank, tab, line feed, carriage return *)
Definition white (w : list Z) : Prop := Forall (fun c => c ∈ [32; 9; 10; 13]) w.

(** ** Strings *)
(** Unicode scalar values, and their UTF-8 form *)
Definition scalar (cp : Z) : Prop := 0 <= cp < 55296 \/ 57344 <= cp < 1114112.
Definition utf8 (cp : Z) : list Z :=
  if cp <? 128 then [cp]
  else if cp <? 2048 then [192 + cp / 64; 128 + cp mod 64]
  else if cp <? 65536 then [224 + cp / 4096; 128 + cp / 64 mod 64; 128 + cp mod 64]
  else [240 + cp / 262144; 128 + cp / 4096 mod 64; 128 + cp / 64 mod 64; 128 + cp mod 64].
(** a hexadecimal digit and four of them *)
Inductive hex : Z -> Z -> Prop :=
| hex_digit i : 0 <= i < 10 -> hex (48 + i) i
| hex_upper i : 10 <= i < 16 -> hex (55 + i) i
| hex_lower i : 10 <= i < 16 -> hex (87 + i) i.
Inductive hex4 : list Z -> Z -> Prop :=
| hex4_intro c1 c2 c3 c4 a b c d : hex c1 a -> hex c2 b -> hex c3 c -> hex c4 d ->
    hex4 [c1; c2; c3; c4] (a * 4096 + b * 256 + c * 16 + d).
(** one character of a string: its text and its bytes *)
Inductive character : list Z -> list Z -> Prop :=
| char_plain cp : scalar cp -> 32 <= cp -> cp <> 34 -> cp <> 92 -> character (utf8 cp) (utf8 cp)
| char_escape e c : (e, c) ∈ [(34, 34); (92, 92); (47, 47); (98, 8); (102, 12); (110, 10); (114, 13); (116, 9)] -> character [92; e] [c]
| char_unicode h cp : hex4 h cp -> scalar cp -> character (92 :: 117 :: h) (utf8 cp)
| char_pair h1 h2 hi lo : hex4 h1 hi -> hex4 h2 lo -> 55296 <= hi < 56320 -> 56320 <= lo < 57344 ->
    character (92 :: 117 :: h1 ++ 92 :: 117 :: h2) (utf8 (65536 + (hi - 55296) * 1024 + (lo - 56320))).
Inductive characters : list Z -> list Z -> Prop :=
| chars_nil : characters [] []
| chars_cons t b t' b' : character t b -> characters t' b' -> characters (t ++ t') (b ++ b').
Definition quoted (t : list Z) (b : list Z) : Prop := exists u, t = 34 :: u ++ [34] /\ characters u b.

(** ** Numbers *)
Definition digit (c : Z) : Prop := 48 <= c <= 57.
Definition digits (l : list Z) : Prop := Forall digit l.
Definition decimal (l : list Z) : Z := fold_left (fun n c => n * 10 + (c - 48)) l 0.
Inductive integer_part : list Z -> Prop :=
| int_zero : integer_part [48]
| int_other d ds : digit d -> d <> 48 -> digits ds -> integer_part (d :: ds).
(** the text after '.', and the exponent with its value *)
Inductive fraction : list Z -> list Z -> Prop :=
| frac_none : fraction [] []
| frac_some ds : digits ds -> ds <> [] -> fraction (46 :: ds) ds.
Inductive exponent : list Z -> Z -> Prop :=
| exp_none : exponent [] 0
| exp_plain e ds : e ∈ [101; 69] -> digits ds -> ds <> [] -> exponent (e :: ds) (decimal ds)
| exp_plus e ds : e ∈ [101; 69] -> digits ds -> ds <> [] -> exponent (e :: 43 :: ds) (decimal ds)
| exp_minus e ds : e ∈ [101; 69] -> digits ds -> ds <> [] -> exponent (e :: 45 :: ds) (- decimal ds).
(** 10^e *)
Definition pow10 (e : Z) : R := bpow (Build_radix 10 eq_refl) e.
(** the double nearest to the real r (ties to even), of the given sign *)
Definition nearest_double (neg : bool) (r : R) (x : float64) : Prop :=
  SpecFloat.valid_binary 53 1024 x = true /\ is_finite_sf x = true /\
  val x = round radix2 (SpecFloat.fexp 53 1024) ZnearestE r /\
  match x with S754_zero s | S754_finite s _ _ => s = neg | _ => False end.
(** A number denotes an integer if it has neither fraction nor exponent and fits 64 bits, and otherwise a double; a number that rounds to
    no finite double is not accepted. *)
Inductive number : list Z -> json -> Prop :=
| num_nat t : integer_part t -> decimal t < 2 ^ 64 -> number t (JUns (decimal t))
| num_neg t : integer_part t -> decimal t <= 2 ^ 63 -> number (45 :: t) (JInt (- decimal t))
| num_real (neg : bool) i ft f et e x : integer_part i -> fraction ft f -> exponent et e ->
    (ft = [] -> et = [] -> if neg then 2 ^ 63 < decimal i else 2 ^ 64 <= decimal i) ->
    nearest_double neg ((if neg then - 1 else 1) * IZR (decimal (i ++ f)) * pow10 (e - Z.of_nat (length f)))%R x ->
    number ((if neg then [45] else []) ++ i ++ ft ++ et) (JFlt x).

(** ** Values.  An object is the map its members describe: of two with the same key the later counts ([jobject]). *)
Inductive value : list Z -> json -> Prop :=
| v_null : value (text "null") JNull
| v_true : value (text "true") (JBool true)
| v_false : value (text "false") (JBool false)
| v_number t j : number t j -> value t j
| v_string t b : quoted t b -> value t (JStr (str b))
| v_array_empty w : white w -> value (91 :: w ++ [93]) (JArr [])
| v_array t vs : array_elements t vs -> value (91 :: t ++ [93]) (JArr vs)
| v_object_empty w : white w -> value (123 :: w ++ [125]) (JObj [])
| v_object t ms : object_members t ms -> value (123 :: t ++ [125]) (jobject ms)
with array_elements : list Z -> list json -> Prop :=
| e_one w1 t v w2 : white w1 -> value t v -> white w2 -> array_elements (w1 ++ t ++ w2) [v]
| e_more w1 t v w2 t' vs : white w1 -> value t v -> white w2 -> array_elements t' vs -> array_elements (w1 ++ t ++ w2 ++ 44 :: t') (v :: vs)
with object_members : list Z -> list (string * json) -> Prop :=
| m_one w1 kt k w2 w3 t v w4 : white w1 -> quoted kt k -> white w2 -> white w3 -> value t v -> white w4 ->
    object_members (w1 ++ kt ++ w2 ++ 58 :: w3 ++ t ++ w4) [(str k, v)]
| m_more w1 kt k w2 w3 t v w4 t' ms : white w1 -> quoted kt k -> white w2 -> white w3 -> value t v -> white w4 -> object_members t' ms ->
    object_members (w1 ++ kt ++ w2 ++ 58 :: w3 ++ t ++ w4 ++ 44 :: t') ((str k, v) :: ms).

(** a JSON text: a value between white space; a byte order mark may precede it *)
Definition json_text (t : list Z) (j : json) : Prop :=
  exists bom w1 u w2, t = bom ++ w1 ++ u ++ w2 /\ (bom = [] \/ bom = [239; 187; 191]) /\ white w1 /\ value u j /\ white w2.
