(** * Model of the text layer of nlohmann::json 3.11.2 as vendored in lib/src/json/json.hpp: json::parse and json::dump, with the default
      arguments the library uses (no callback, no comments, strict, no indentation, ensure_ascii = false, error handler strict).
      Proofs are elsewhere.

    A text is the list of its bytes, as numbers 0..255.  [get] of the lexer returns -1 at the end of the input; here the list is empty.
    Not modelled: positions and texts of error messages; the locale is taken to be "C" (decimal point '.', no thousands separator). *)
From Verif Require Export Json Grisu.
From stdpp Require Import list.
Local Open Scope Z_scope.

(** std::string as bytes *)
Definition bytes (s : string) : list Z := map (fun a => Z.of_N (Ascii.N_of_ascii a)) (list_ascii_of_string s).
Definition string_of_bytes (l : list Z) : string := string_of_list_ascii (map (fun z => Ascii.ascii_of_N (Z.to_N z)) l).

(** ** Lexer, json.hpp:7412-8935 *)
Inductive token :=
| TBeginObj | TEndObj | TBeginArr | TEndArr | TColon | TComma | TTrue | TFalse | TNull
| TStr (s : list Z) | TUns (z : Z) | TInt (z : Z) | TFlt (x : float64) | TEnd | TErr.

Definition is_digit (c : Z) : bool := (48 <=? c) && (c <=? 57).
(** 7485-7499: the value of a hexadecimal digit *)
Definition hex_val (c : Z) : option Z :=
  if (48 <=? c) && (c <=? 57) then Some (c - 48)
  else if (65 <=? c) && (c <=? 70) then Some (c - 55)
  else if (97 <=? c) && (c <=? 102) then Some (c - 87)
  else None.
(** 7470-7506 get_codepoint, on the four characters it reads (None = -1; when the input ends it also returns -1) *)
Definition get_codepoint (c1 c2 c3 c4 : Z) : option Z :=
  match hex_val c1, hex_val c2, hex_val c3, hex_val c4 with
  | Some a, Some b, Some c, Some d => Some (a * 4096 + b * 256 + c * 16 + d)
  | _, _, _, _ => None
  end.
(** 7678-7704: translate a codepoint into bytes *)
Definition codepoint_bytes (cp : Z) : list Z :=
  if cp <? 128 then [cp]
  else if cp <=? 2047 then [Z.lor 192 (Z.shiftr cp 6); Z.lor 128 (Z.land cp 63)]
  else if cp <=? 65535 then [Z.lor 224 (Z.shiftr cp 12); Z.lor 128 (Z.land (Z.shiftr cp 6) 63); Z.lor 128 (Z.land cp 63)]
  else [Z.lor 240 (Z.shiftr cp 18); Z.lor 128 (Z.land (Z.shiftr cp 12) 63); Z.lor 128 (Z.land (Z.shiftr cp 6) 63);
        Z.lor 128 (Z.land cp 63)].
(** 7571-7619: the single character escapes *)
Definition simple_escape (c : Z) : option Z :=
  if c =? 34 then Some 34 else if c =? 92 then Some 92 else if c =? 47 then Some 47 else if c =? 98 then Some 8
  else if c =? 102 then Some 12 else if c =? 110 then Some 10 else if c =? 114 then Some 13 else if c =? 116 then Some 9 else None.
(** 8014-8132: the ranges of the bytes which must follow a first byte, None when it is not allowed in a string
    (7722-7900: control characters; 8131: 80..C1 and F5..FF) *)
Definition following (c : Z) : option (list (Z * Z)) :=
  if (32 <=? c) && (c <=? 127) then Some []
  else if (194 <=? c) && (c <=? 223) then Some [(128, 191)]
  else if c =? 224 then Some [(160, 191); (128, 191)]
  else if ((225 <=? c) && (c <=? 236)) || (c =? 238) || (c =? 239) then Some [(128, 191); (128, 191)]
  else if c =? 237 then Some [(128, 159); (128, 191)]
  else if c =? 240 then Some [(144, 191); (128, 191); (128, 191)]
  else if (241 <=? c) && (c <=? 243) then Some [(128, 191); (128, 191); (128, 191)]
  else if c =? 244 then Some [(128, 143); (128, 191); (128, 191)]
  else None.
Definition in_rng (c : Z) (r : Z * Z) : bool := (fst r <=? c) && (c <=? snd r).

(** 7555-8139 scan_string, after the opening quote: the contents and what follows the closing quote; None = parse_error.
    The loop over the ranges in next_byte_in_range (7524-7545) is unfolded: there are at most three. *)
Fixpoint scan_string (l : list Z) (buf : list Z) : option (list Z * list Z) :=
  match l with
  | [] => None
  | c :: l =>
    if c =? 34 then Some (buf, l)
    else if c =? 92 then
      match l with
      | [] => None
      | e :: l =>
        match simple_escape e with
        | Some b => scan_string l (buf ++ [b])
        | None =>
          if e =? 117 then
            match l with
            | h1 :: h2 :: h3 :: h4 :: l =>
              match get_codepoint h1 h2 h3 h4 with
              | None => None
              | Some cp1 =>
                if (55296 <=? cp1) && (cp1 <=? 56319) then
                  match l with
                  | b :: u :: g1 :: g2 :: g3 :: g4 :: l =>
                    if (b =? 92) && (u =? 117) then
                      match get_codepoint g1 g2 g3 g4 with
                      | None => None
                      | Some cp2 =>
                        if (56320 <=? cp2) && (cp2 <=? 57343)
                        then scan_string l (buf ++ codepoint_bytes (Z.shiftl cp1 10 + cp2 - 56613888))
                        else None
                      end
                    else None
                  | _ => None
                  end
                else if (56320 <=? cp1) && (cp1 <=? 57343) then None
                else scan_string l (buf ++ codepoint_bytes cp1)
              end
            | _ => None
            end
          else None
        end
      end
    else
      match following c with
      | Some [] => scan_string l (buf ++ [c])
      | Some [r1] =>
        match l with
        | b1 :: l => if in_rng b1 r1 then scan_string l (buf ++ [c; b1]) else None
        | _ => None
        end
      | Some [r1; r2] =>
        match l with
        | b1 :: b2 :: l => if in_rng b1 r1 && in_rng b2 r2 then scan_string l (buf ++ [c; b1; b2]) else None
        | _ => None
        end
      | Some [r1; r2; r3] =>
        match l with
        | b1 :: b2 :: b3 :: l =>
            if in_rng b1 r1 && in_rng b2 r2 && in_rng b3 r3 then scan_string l (buf ++ [c; b1; b2; b3]) else None
        | _ => None
        end
      | _ => None
      end
  end.

(** 8270-8580 scan_number: the states are the labels of the code; [num_type] is number_type *)
Inductive num_type := NUns | NInt | NFlt.
Inductive num_state := NMinus | NZero | NAny1 | NDec1 | NDec2 | NExp | NSign | NAny2.
Definition is_exp (c : Z) : bool := (c =? 101) || (c =? 69).
Fixpoint num_loop (st : num_state) (ty : num_type) (buf : list Z) (l : list Z) : option (num_type * list Z * list Z) :=
  let stop := Some (ty, buf, l) in   (* scan_number_done: the character is given back *)
  match l with
  | [] => match st with NZero | NAny1 | NDec2 | NAny2 => stop | _ => None end
  | c :: l' =>
    let next st ty := num_loop st ty (buf ++ [c]) l' in
    match st with
    | NMinus => if c =? 48 then next NZero ty else if is_digit c then next NAny1 ty else None
    | NZero => if c =? 46 then next NDec1 NFlt else if is_exp c then next NExp NFlt else stop
    | NAny1 => if is_digit c then next NAny1 ty else if c =? 46 then next NDec1 NFlt else if is_exp c then next NExp NFlt else stop
    | NDec1 => if is_digit c then next NDec2 ty else None
    | NDec2 => if is_digit c then next NDec2 ty else if is_exp c then next NExp NFlt else stop
    | NExp => if (c =? 43) || (c =? 45) then next NSign ty else if is_digit c then next NAny2 ty else None
    | NSign => if is_digit c then next NAny2 ty else None
    | NAny2 => if is_digit c then next NAny2 ty else stop
    end
  end.

(** ** Conversion of the number text by the C library (contracts of strtoull, strtoll and strtod) *)
(** value of the leading decimal digits of a text, the number of fraction digits, and what follows *)
Fixpoint dec_scan (l : list Z) (frac : bool) (m k : Z) : Z * Z * list Z :=
  match l with
  | c :: l' =>
      if is_digit c then dec_scan l' frac (m * 10 + (c - 48)) (if frac then k + 1 else k)
      else if (c =? 46) && negb frac then dec_scan l' true m k
      else (m, k, l)
  | [] => (m, k, l)
  end.
Definition int_scan (l : list Z) : Z := fst (fst (dec_scan l true 0 0)).
(** the exponent after 'e' *)
Definition exp_scan (l : list Z) : Z :=
  match l with
  | c :: l' => if c =? 45 then - int_scan l' else if c =? 43 then int_scan l' else int_scan l
  | [] => 0
  end.
(** the double nearest to (-1)^s * m * 10^e, ties to even; infinity on overflow *)
Definition f64_of_dec (s : bool) (m e : Z) : float64 :=
  match m with
  | Zpos p =>
      if 0 <=? e then SpecFloat.binary_normalize 53 1024 (Floats.cond_neg s (m * 10 ^ e)) 0 s
      else
        match 10 ^ (- e) with
        | Zpos q => let '(mz, ez, lz) := SFdiv_core_binary 53 1024 (Zpos p) 0 (Zpos q) 0 in SpecFloat.binary_round_aux 53 1024 s mz ez lz
        | _ => S754_nan
        end
  | _ => S754_zero s
  end.
Definition strtod (buf : list Z) : float64 :=
  let '(s, l) := match buf with c :: l => if c =? 45 then (true, l) else (false, buf) | [] => (false, buf) end in
  let '(m, k, r) := dec_scan l false 0 0 in
  let e := match r with c :: r' => if is_exp c then exp_scan r' else 0 | [] => 0 end in
  f64_of_dec s m (e - k).
(** strtoull of digits, strtoll of '-' and digits; None = ERANGE *)
Definition strtoull (buf : list Z) : option Z := let z := int_scan buf in if z <=? 18446744073709551615 then Some z else None.
Definition strtoll (buf : list Z) : option Z :=
  match buf with
  | c :: l => let z := - int_scan l in if -9223372036854775808 <=? z then Some z else None
  | [] => Some 0
  end.

(** 8270-8312 (first character [c]) and 8530-8590 (conversion) of scan_number *)
Definition scan_number (c : Z) (l : list Z) : token * list Z :=
  let '(st, ty) := if c =? 45 then (NMinus, NInt) else if c =? 48 then (NZero, NUns) else (NAny1, NUns) in
  match num_loop st ty [c] l with
  | None => (TErr, [])
  | Some (ty, buf, l) =>
      let float := (TFlt (strtod buf), l) in
      match ty with
      | NUns => match strtoull buf with Some z => (TUns z, l) | None => float end
      | NInt => match strtoll buf with Some z => (TInt z, l) | None => float end
      | NFlt => float
      end
  end.

(** 8601-8614 scan_literal: the remaining characters of the literal *)
Fixpoint scan_literal (lit : list Z) (t : token) (l : list Z) : token * list Z :=
  match lit with
  | [] => (t, l)
  | a :: lit => match l with c :: l => if c =? a then scan_literal lit t l else (TErr, []) | [] => (TErr, []) end
  end.
(** 8800-8807 skip_whitespace *)
Definition is_space (c : Z) : bool := (c =? 32) || (c =? 9) || (c =? 10) || (c =? 13).
Fixpoint skip_ws (l : list Z) : list Z :=
  match l with c :: l' => if is_space c then skip_ws l' else l | [] => [] end.
(** 8809-8905 scan, without the byte order mark.  After an error the rest of the input is not used. *)
Definition scan (l : list Z) : token * list Z :=
  match skip_ws l with
  | [] => (TEnd, [])
  | c :: r =>
      if c =? 91 then (TBeginArr, r)
      else if c =? 93 then (TEndArr, r)
      else if c =? 123 then (TBeginObj, r)
      else if c =? 125 then (TEndObj, r)
      else if c =? 58 then (TColon, r)
      else if c =? 44 then (TComma, r)
      else if c =? 116 then scan_literal [114; 117; 101] TTrue r
      else if c =? 102 then scan_literal [97; 108; 115; 101] TFalse r
      else if c =? 110 then scan_literal [117; 108; 108] TNull r
      else if c =? 34 then match scan_string r [] with Some (s, r) => (TStr s, r) | None => (TErr, []) end
      else if (c =? 45) || is_digit c then scan_number c r
      else if c =? 0 then (TEnd, c :: r)
      else (TErr, [])
  end.

(** ** Parser, json.hpp:12278-12550 sax_parse_internal with json_sax_dom_parser (6730-6915) *)
(** an array or object under construction (the elements of states and ref_stack).  In an object, sax->key (6807-6816) has stored null
    at the key, which the value then replaces. *)
Inductive frame := FArr (vs : list json) | FObj (ms : list (string * json)) (key : string).
(** what the loop looks at: last_token, or (skip_to_state_evaluation, or after a value) the value just completed *)
Inductive focus := Tok (t : token) | Val (v : json).
Fixpoint sax_loop (fuel : nat) (st : list frame) (f : focus) (l : list Z) : outcome (option (json * list Z)) :=
  match fuel with
  | O => OutOfFuel
  | S fuel =>
    match f with
    | Tok TBeginObj =>
        match scan l with
        | (TEndObj, l) => sax_loop fuel st (Val (JObj [])) l
        | (TStr k, l) =>
            match scan l with
            | (TColon, l) => let '(t, l) := scan l in sax_loop fuel (FObj [] (string_of_bytes k) :: st) (Tok t) l
            | _ => Ret None
            end
        | _ => Ret None
        end
    | Tok TBeginArr =>
        match scan l with
        | (TEndArr, l) => sax_loop fuel st (Val (JArr [])) l
        | (t, l) => sax_loop fuel (FArr [] :: st) (Tok t) l
        end
    | Tok (TFlt x) => if is_finite_sf x then sax_loop fuel st (Val (JFlt x)) l else Ret None
    | Tok TFalse => sax_loop fuel st (Val (JBool false)) l
    | Tok TNull => sax_loop fuel st (Val JNull) l
    | Tok TTrue => sax_loop fuel st (Val (JBool true)) l
    | Tok (TInt z) => sax_loop fuel st (Val (JInt z)) l
    | Tok (TStr s) => sax_loop fuel st (Val (JStr (string_of_bytes s))) l
    | Tok (TUns z) => sax_loop fuel st (Val (JUns z)) l
    | Tok _ => Ret None
    | Val v =>
        match st with
        | [] => Ret (Some (v, l))
        | FArr vs :: st =>
            match scan l with
            | (TComma, l) => let '(t, l) := scan l in sax_loop fuel (FArr (vs ++ [v]) :: st) (Tok t) l
            | (TEndArr, l) => sax_loop fuel st (Val (JArr (vs ++ [v]))) l
            | _ => Ret None
            end
        | FObj ms k :: st =>
            let ms := obj_insert k v ms in
            match scan l with
            | (TComma, l) =>
                match scan l with
                | (TStr k, l) =>
                    match scan l with
                    | (TColon, l) => let '(t, l) := scan l in sax_loop fuel (FObj ms (string_of_bytes k) :: st) (Tok t) l
                    | _ => Ret None
                    end
                | _ => Ret None
                end
            | (TEndObj, l) => sax_loop fuel st (Val (JObj ms)) l
            | _ => Ret None
            end
        end
    end
  end.

(** 8784-8798 skip_bom *)
Definition skip_bom (l : list Z) : option (list Z) :=
  match l with
  | c :: r => if c =? 239 then match r with b1 :: b2 :: r => if (b1 =? 187) && (b2 =? 191) then Some r else None | _ => None end else Some l
  | [] => Some l
  end.
(** 12160-12170 (first token), 12191-12243 parse(strict = true), called by json::parse(text): None = it throws parse_error, or
    out_of_range.406 for a number too large.  Every turn of the loop reads a character or completes a value just read. *)
Definition parse (text : list Z) : outcome (option json) :=
  match skip_bom text with
  | None => Ret None
  | Some l =>
      let '(t, l) := scan l in
      let* r := sax_loop (2 * length text + 2) [] (Tok t) l in
      Ret (match r with
           | Some (v, l) => match scan l with (TEnd, _) => Some v | _ => None end
           | None => None
           end)
  end.

(** ** Serializer, json.hpp:17935-18880 *)
(** 18757-18776 utf8d *)
Definition utf8d : list Z :=
  replicate 128 0 ++ replicate 16 1 ++ replicate 16 9 ++ replicate 32 7 ++ [8; 8] ++ replicate 30 2
  ++ [10; 3; 3; 3; 3; 3; 3; 3; 3; 3; 3; 3; 3; 4; 3; 3] ++ [11; 6; 6; 6; 5; 8; 8; 8; 8; 8; 8; 8; 8; 8; 8; 8]
  ++ [0; 1; 2; 3; 5; 8; 7; 1; 1; 1; 4; 6; 1; 1; 1; 1]
  ++ [1; 1; 1; 1; 1; 1; 1; 1; 1; 1; 1; 1; 1; 1; 1; 1; 1; 0; 1; 1; 1; 1; 1; 0; 1; 0; 1; 1; 1; 1; 1; 1]
  ++ [1; 2; 1; 1; 1; 1; 1; 2; 1; 2; 1; 1; 1; 1; 1; 1; 1; 1; 1; 1; 1; 1; 1; 2; 1; 1; 1; 1; 1; 1; 1; 1]
  ++ [1; 2; 1; 1; 1; 1; 1; 1; 1; 2; 1; 1; 1; 1; 1; 1; 1; 1; 1; 1; 1; 1; 1; 3; 1; 3; 1; 1; 1; 1; 1; 1]
  ++ [1; 3; 1; 1; 1; 1; 1; 3; 1; 3; 1; 1; 1; 1; 1; 1; 1; 3; 1; 1; 1; 1; 1; 1; 1; 1; 1; 1; 1; 1; 1; 1].
(** 18755-18793 decode: new state and code point *)
Definition decode (state codep byte : Z) : outcome (Z * Z) :=
  let* type := vget utf8d (Z.to_nat byte) in
  let codep := if state =? 0 then Z.land (Z.shiftr 255 type) byte else u32 (Z.lor (Z.land byte 63) (Z.shiftl codep 6)) in
  let* state := vget utf8d (Z.to_nat (256 + state * 16 + type)) in
  Ret (state, codep).
(** "%04x" *)
Definition hex_digit (z : Z) : Z := if z <? 10 then 48 + z else 87 + z.
Definition hex4 (z : Z) : list Z := [hex_digit (z / 4096 mod 16); hex_digit (z / 256 mod 16); hex_digit (z / 16 mod 16); hex_digit (z mod 16)].
(** 18296-18370 with ensure_ascii = false: what is written for a code point whose last byte is [b] *)
Definition escaped (cp b : Z) : list Z :=
  if cp =? 8 then [92; 98] else if cp =? 9 then [92; 116] else if cp =? 10 then [92; 110] else if cp =? 12 then [92; 102]
  else if cp =? 13 then [92; 114] else if cp =? 34 then [92; 34] else if cp =? 92 then [92; 92]
  else if cp <=? 31 then 92 :: 117 :: hex4 cp
  else [b].
(** string_buffer[bytes++] = ..: the pending characters; the array has 512 elements *)
Definition put (buf : list Z) (cs : list Z) : outcome (list Z) :=
  if decide (length buf + length cs <= 512)%nat then Ret (buf ++ cs) else UB OutOfBounds.
(** 18270-18520 dump_escaped, error handler strict; [out] has been written, [buf] is pending in string_buffer *)
Fixpoint dump_escaped (s : list Z) (state codep : Z) (out buf : list Z) : outcome (list Z) :=
  match s with
  | [] => if state =? 0 then Ret (out ++ buf) else Throw JsonTypeError
  | b :: s =>
      let* '(state, codep) := decode state codep b in
      if state =? 0 then
        let* buf := put buf (escaped codep b) in
        if 512 - Z.of_nat (length buf) <? 13 then dump_escaped s state codep (out ++ buf) [] else dump_escaped s state codep out buf
      else if state =? 1 then Throw JsonTypeError
      else
        let* buf := put buf [b] in
        dump_escaped s state codep out buf
  end.
Definition dump_string (s : string) : outcome (list Z) := dump_escaped (bytes s) 0 0 [] [].

(** 18530-18552 count_digits (64-bit: five turns are enough) *)
Fixpoint count_digits (fuel : nat) (x n : Z) : outcome Z :=
  match fuel with
  | O => OutOfFuel
  | S fuel =>
      if x <? 10 then Ret n else if x <? 100 then Ret (n + 1) else if x <? 1000 then Ret (n + 2) else if x <? 10000 then Ret (n + 3)
      else count_digits fuel (x / 10000) (n + 4)
  end.
(** 18646-18666: the characters are generated backwards, two at a time; digits_to_99[i] are the two digits of i *)
Fixpoint int_chars (fuel : nat) (x : Z) (acc : list Z) : outcome (list Z) :=
  match fuel with
  | O => OutOfFuel
  | S fuel =>
      if 100 <=? x then int_chars fuel (x / 100) ((48 + x mod 100 / 10) :: (48 + x mod 100 mod 10) :: acc)
      else if 10 <=? x then Ret ((48 + x / 10) :: (48 + x mod 10) :: acc)
      else Ret ((48 + x) :: acc)
  end.
(** 18590-18669 dump_integer.  The digits end at the position count_digits says; if they did not begin at the start of the buffer (after
    the sign) something else would be written there, which counts as undefined here. *)
Definition dump_integer (x : Z) : outcome (list Z) :=
  if x =? 0 then Ret [48] else
  let '(sign, abs_value) := if x <? 0 then ([45], - (x + 1) + 1) else ([], x) in
  let* n := count_digits 6 abs_value 1 in
  let* cs := int_chars 11 abs_value [] in
  if Z.of_nat (length cs) =? n then Ret (sign ++ cs) else UB OutOfBounds.

(** 17705-17748 append_exponent *)
Definition append_exponent (e : Z) : outcome (list Z) :=
  let* _ := jassert (-1000 <? e) in
  let* _ := jassert (e <? 1000) in
  let '(sign, k) := if e <? 0 then (45, - e) else (43, e) in
  Ret (sign :: (if k <? 10 then [48; 48 + k]
                else if k <? 100 then [48 + k / 10; 48 + k mod 10]
                else [48 + k / 100; 48 + k mod 100 / 10; 48 + k mod 100 mod 10])).
(** 17750-17831 format_buffer: digits [buf], value buf * 10^decimal_exponent.  number_buffer has 64 elements (18850), one of them may hold
    the sign: [format_buffer] writes what it returns in place. *)
Definition format_buffer (buf : list Z) (decimal_exponent min_exp max_exp : Z) : outcome (list Z) :=
  let* _ := jassert (min_exp <? 0) in
  let* _ := jassert (0 <? max_exp) in
  let k := Z.of_nat (length buf) in
  let n := k + decimal_exponent in
  if (k <=? n) && (n <=? max_exp) then Ret (buf ++ replicate (Z.to_nat (n - k)) 48 ++ [46; 48])
  else if (0 <? n) && (n <=? max_exp) then
    let* _ := jassert (n <? k) in
    Ret (take (Z.to_nat n) buf ++ 46 :: drop (Z.to_nat n) buf)
  else if (min_exp <? n) && (n <=? 0) then Ret (48 :: 46 :: replicate (Z.to_nat (- n)) 48 ++ buf)
  else
    let* e := append_exponent (n - 1) in
    Ret ((if k =? 1 then buf else take 1 buf ++ 46 :: drop 1 buf) ++ 101 :: e).

(** 17837-17898 to_chars, writing to number_buffer (64 characters).  The asserts on last - first compare constants (at least 63 against at
    most 23) and hold. *)
Definition to_chars (x : float64) : outcome (list Z) :=
  let '(sign, v) := match x with
                    | S754_finite true m e => ([45], S754_finite false m e)
                    | S754_zero true => ([45], S754_zero false)
                    | _ => ([], x)
                    end in
  match v with
  | S754_zero _ => Ret (sign ++ [48; 46; 48])
  | _ =>
      let* '(buf, e) := grisu2 v in
      let* _ := jassert (Z.of_nat (length buf) <=? 17) in
      let* t := format_buffer buf e (-4) 15 in
      let t := sign ++ t in
      if decide (length t <= 64)%nat then Ret t else UB OutOfBounds
  end.
(** 18683-18710 dump_float *)
Definition dump_float (x : float64) : outcome (list Z) := if is_finite_sf x then to_chars x else Ret (bytes "null").
(** 17990-18255 dump, not pretty printed *)
Fixpoint dump (j : json) : outcome (list Z) :=
  match j with
  | JNull => Ret (bytes "null")
  | JBool b => Ret (if b then bytes "true" else bytes "false")
  | JInt z | JUns z => dump_integer z
  | JFlt x => dump_float x
  | JStr s => let* t := dump_string s in Ret (34 :: t ++ [34])
  | JArr vs =>
      (fix elems (first : bool) (l : list json) (out : list Z) : outcome (list Z) :=
         match l with
         | [] => Ret (91 :: out ++ [93])
         | v :: l => let* t := dump v in elems false l (out ++ (if first then [] else [44]) ++ t)
         end) true vs []
  | JObj ms =>
      (fix members (first : bool) (l : list (string * json)) (out : list Z) : outcome (list Z) :=
         match l with
         | [] => Ret (123 :: out ++ [125])
         | (k, v) :: l =>
             let* s := dump_string k in
             let* t := dump v in
             members false l (out ++ (if first then [] else [44]) ++ 34 :: s ++ 34 :: 58 :: t)
         end) true ms []
  end.
