(** encoding/json (Go standard library 1.16) as used at oauth2.go:83,
    scope.go:66, 72, token.go:278, introspection.go:168 and error.go:288,
    restricted to the types /repo encodes and decodes. *)
From Verif.Model Require Export Float.
Local Open Scope N_scope.

(** ** UTF-8 (package unicode/utf8) *)

(** utf8.go: a continuation byte. *)
Definition cont (b : ascii) : bool := (128 <=? ord b) && (ord b <=? 191).
(** utf8.go: a byte of an accept range. *)
Definition in_range (lo hi : N) (b : ascii) : bool := (lo <=? ord b) && (ord b <=? hi).

(** Valid two, three and four byte sequences. *)
Definition seq2 (a b : ascii) : bool := in_range 194 223 a && cont b.
(** utf8.go DecodeRune: a valid three byte sequence (no overlong form, no surrogate). *)
Definition seq3 (a b c : ascii) : bool :=
  cont c &&
  (if ord a =? 224 then in_range 160 191 b
   else if ord a =? 237 then in_range 128 159 b
   else in_range 225 239 a && cont b).
(** utf8.go DecodeRune: a valid four byte sequence (no overlong form, at most U+10FFFF). *)
Definition seq4 (a b c d : ascii) : bool :=
  cont c && cont d &&
  (if ord a =? 240 then in_range 144 191 b
   else if ord a =? 244 then in_range 128 143 b
   else in_range 241 243 a && cont b).

(** utf8.go DecodeRune: the code point of two bytes. *)
Definition cp2 (a b : ascii) : N := (ord a - 192) * 64 + (ord b - 128).
(** utf8.go DecodeRune: the code point of three bytes. *)
Definition cp3 (a b c : ascii) : N :=
  (ord a - 224) * 4096 + (ord b - 128) * 64 + (ord c - 128).
(** utf8.go DecodeRune: the code point of four bytes. *)
Definition cp4 (a b c d : ascii) : N :=
  (ord a - 240) * 262144 + (ord b - 128) * 4096 + (ord c - 128) * 64 + (ord d - 128).

(** utf8.EncodeRune for a valid code point. *)
Definition utf8_encode (n : N) : string :=
  if n <? 128 then str1 (chr n)
  else if n <? 2048 then String (chr (192 + n / 64)) (str1 (chr (128 + n mod 64)))
  else if n <? 65536 then
    String (chr (224 + n / 4096))
      (String (chr (128 + n / 64 mod 64)) (str1 (chr (128 + n mod 64))))
  else
    String (chr (240 + n / 262144))
      (String (chr (128 + n / 4096 mod 64))
         (String (chr (128 + n / 64 mod 64)) (str1 (chr (128 + n mod 64))))).

(** utf8.RuneError, U+FFFD. *)
Definition rune_error : N := 65533.

(** Repeated utf8.DecodeRune: [None] stands for RuneError of width 1, an
    invalid byte. *)
Fixpoint runes (s : string) : list (option N) :=
  match s with
  | "" => []
  | String a r =>
      if ord a <? 128 then Some (ord a) :: runes r
      else match r with
           | "" => None :: runes r
           | String b r1 =>
               if seq2 a b then Some (cp2 a b) :: runes r1
               else match r1 with
                    | "" => None :: runes r
                    | String c r2 =>
                        if seq3 a b c then Some (cp3 a b c) :: runes r2
                        else match r2 with
                             | "" => None :: runes r
                             | String d r3 =>
                                 if seq4 a b c d then Some (cp4 a b c d) :: runes r3
                                 else None :: runes r
                             end
                    end
           end
  end.

(** ** Values *)
Inductive json :=
| JNull
| JBool (b : bool)
| JNum (literal : string)
| JStr (s : string)
| JArr (l : list json)
| JObj (l : list (string * json)).

(** ** Encoding *)
Definition hex_lower (n : N) : ascii := if n <? 10 then chr (48 + n) else chr (87 + n).

(** A backslash. *)
Definition bslash : ascii := "092"%char.
(** A double quote. *)
Definition quote : ascii := "034"%char.
(** encode.go: a backslash followed by the given text. *)
Definition esc (rest : string) : string := String bslash rest.

(** encodeState.string with escapeHTML, one rune. *)
Definition json_rune (r : option N) : string :=
  match r with
  | None => esc "ufffd"
  | Some n =>
      if n <? 128 then
        let b := chr n in
        if (n =? 92) || (n =? 34) then esc (str1 b)
        else if n =? 10 then esc "n"
        else if n =? 13 then esc "r"
        else if n =? 9 then esc "t"
        else if (n <? 32) || (n =? 60) || (n =? 62) || (n =? 38) then
          esc ("u00" +:+ String (hex_lower (n / 16)) (str1 (hex_lower (n mod 16))))
        else str1 b
      else if n =? 8232 then esc "u2028"
      else if n =? 8233 then esc "u2029"
      else utf8_encode n
  end.

(** Concatenation of the pieces written to a buffer. *)
Definition concat_str (l : list string) : string := fold_right String.append "" l.

(** encode.go encodeState.string: what is written between the quotes. *)
Definition json_body (s : string) : string := concat_str (map json_rune (runes s)).
(** encode.go encodeState.string. *)
Definition json_string (s : string) : string :=
  String quote (json_body s +:+ str1 quote).

(** json.Marshal of a value; objects are written with their members in the
    order given (struct fields in declaration order). *)
Fixpoint json_render (j : json) : string :=
  match j with
  | JNull => "null"
  | JBool true => "true"
  | JBool false => "false"
  | JNum lit => lit
  | JStr s => json_string s
  | JArr l => "[" +:+ join "," (map json_render l) +:+ "]"
  | JObj l =>
      "{" +:+ join "," (map (fun kv => json_string (fst kv) +:+ ":" +:+ json_render (snd kv)) l)
      +:+ "}"
  end.

(** json.NewEncoder(w).Encode: the value and a newline (oauth2.go:83). *)
Definition json_encode (j : json) : string := json_render j +:+ str1 "010".

(** ** Decoding *)

(** scanner.go isSpace. *)
Definition is_json_space (a : ascii) : bool :=
  (ord a =? 32) || (ord a =? 9) || (ord a =? 13) || (ord a =? 10).
(** scanner.go: skip white space between tokens. *)
Fixpoint skip_ws (s : string) : string :=
  match s with
  | "" => ""
  | String a r => if is_json_space a then skip_ws r else s
  end.

(** decode.go getu4: the value of a hexadecimal digit. *)
Definition hex_val (c : ascii) : option N :=
  if is_digit c then Some (ord c - 48)
  else if (97 <=? ord c) && (ord c <=? 102) then Some (ord c - 87)
  else if (65 <=? ord c) && (ord c <=? 70) then Some (ord c - 55)
  else None.

(** One element of a string literal: a plain byte (or the byte of a two
    character escape), or the code unit of a \u escape. *)
Inductive jchar := CByte (a : ascii) | CUnit (n : N).

(** The byte denoted by a two character escape. *)
Definition simple_escape (a : ascii) : option ascii :=
  if Ascii.eqb a quote then Some quote
  else if Ascii.eqb a bslash then Some bslash
  else if Ascii.eqb a "/"%char then Some "/"%char
  else if Ascii.eqb a "b"%char then Some (chr 8)
  else if Ascii.eqb a "f"%char then Some (chr 12)
  else if Ascii.eqb a "n"%char then Some (chr 10)
  else if Ascii.eqb a "r"%char then Some (chr 13)
  else if Ascii.eqb a "t"%char then Some (chr 9)
  else None.

(** scanner.go stateInString ff.: the elements up to the closing quote and
    the rest of the input. *)
Fixpoint scan_string (s : string) : option (list jchar * string) :=
  match s with
  | "" => None
  | String a r =>
      if Ascii.eqb a quote then Some ([], r)
      else if Ascii.eqb a bslash then
        match r with
        | "" => None
        | String e r1 =>
            if Ascii.eqb e "u"%char then
              match r1 with
              | String h1 (String h2 (String h3 (String h4 r2))) =>
                  match hex_val h1, hex_val h2, hex_val h3, hex_val h4 with
                  | Some a1, Some a2, Some a3, Some a4 =>
                      match scan_string r2 with
                      | Some (l, rest) =>
                          Some (CUnit (a1 * 4096 + a2 * 256 + a3 * 16 + a4) :: l, rest)
                      | None => None
                      end
                  | _, _, _, _ => None
                  end
              | _ => None
              end
            else match simple_escape e with
                 | Some b => match scan_string r1 with
                             | Some (l, rest) => Some (CByte b :: l, rest)
                             | None => None
                             end
                 | None => None
                 end
        end
      else if ord a <? 32 then None
      else match scan_string r with
           | Some (l, rest) => Some (CByte a :: l, rest)
           | None => None
           end
  end.

(** utf16.go IsSurrogate. *)
Definition is_surrogate (n : N) : bool := (55296 <=? n) && (n <? 57344).
(** utf16.go: the first half of a surrogate pair. *)
Definition is_high (n : N) : bool := (55296 <=? n) && (n <? 56320).
(** utf16.go: the second half of a surrogate pair. *)
Definition is_low (n : N) : bool := (56320 <=? n) && (n <? 57344).

(** decode.go unquoteBytes: surrogate pairs are combined, lone surrogates and
    invalid UTF-8 become U+FFFD. *)
Fixpoint unquote (l : list jchar) : string :=
  match l with
  | [] => ""
  | CUnit n :: r =>
      if is_surrogate n then
        match r with
        | CUnit m :: r1 =>
            if is_high n && is_low m then
              utf8_encode ((n - 55296) * 1024 + (m - 56320) + 65536) +:+ unquote r1
            else utf8_encode rune_error +:+ unquote r
        | _ => utf8_encode rune_error +:+ unquote r
        end
      else utf8_encode n +:+ unquote r
  | CByte a :: r =>
      if ord a <? 128 then String a (unquote r)
      else match r with
           | CByte b :: r1 =>
               if seq2 a b then String a (String b (unquote r1))
               else match r1 with
                    | CByte c :: r2 =>
                        if seq3 a b c then String a (String b (String c (unquote r2)))
                        else match r2 with
                             | CByte d :: r3 =>
                                 if seq4 a b c d
                                 then String a (String b (String c (String d (unquote r3))))
                                 else utf8_encode rune_error +:+ unquote r
                             | _ => utf8_encode rune_error +:+ unquote r
                             end
                    | _ => utf8_encode rune_error +:+ unquote r
                    end
           | _ => utf8_encode rune_error +:+ unquote r
           end
  end.

(** Number literals (scanner.go stateNeg, state0, state1, stateDot, stateE). *)
Definition scan_int (s : string) : option (string * string) :=
  match s with
  | String a r =>
      if Ascii.eqb a "0"%char then Some ("0", r)
      else if is_digit a then let '(d, rest) := take_digits r in Some (String a d, rest)
      else None
  | "" => None
  end.
(** scanner.go stateDot and stateDot0: an optional fraction. *)
Definition scan_frac (s : string) : option (string * string) :=
  match s with
  | String a r =>
      if Ascii.eqb a "."%char then
        let '(d, rest) := take_digits r in
        if seqb d "" then None else Some (String a d, rest)
      else Some ("", s)
  | "" => Some ("", s)
  end.
(** scanner.go stateE, stateESign and stateE0: an optional exponent. *)
Definition scan_exp (s : string) : option (string * string) :=
  match s with
  | String a r =>
      if Ascii.eqb a "e"%char || Ascii.eqb a "E"%char then
        let '(sign, r1) :=
          match r with
          | String b r' => if Ascii.eqb b "+"%char || Ascii.eqb b "-"%char
                           then (str1 b, r') else ("", r)
          | "" => ("", r)
          end in
        let '(d, rest) := take_digits r1 in
        if seqb d "" then None else Some (String a (sign +:+ d), rest)
      else Some ("", s)
  | "" => Some ("", s)
  end.
(** scanner.go stateNeg, state0 and state1: a number literal and what follows it. *)
Definition scan_number (s : string) : option (string * string) :=
  let '(sign, s0) :=
    match s with
    | String a r => if Ascii.eqb a "-"%char then ("-", r) else ("", s)
    | "" => ("", s)
    end in
  match scan_int s0 with
  | None => None
  | Some (i, s1) =>
      match scan_frac s1 with
      | None => None
      | Some (f, s2) =>
          match scan_exp s2 with
          | None => None
          | Some (e, s3) => Some (sign +:+ i +:+ f +:+ e, s3)
          end
      end
  end.

(** One value after optional white space (scanner.go). [depth] is what is left
    of maxNestingDepth; [fuel] is always the length of the input plus one, so
    it never runs out. *)
Fixpoint parse_value (fuel : nat) (depth : N) (s : string) : option (json * string) :=
  match fuel with
  | O => None
  | S f =>
      match skip_ws s with
      | "" => None
      | String a r as t =>
          if Ascii.eqb a "{"%char then
            if depth =? 0 then None
            else match skip_ws r with
                 | String b r1 =>
                     if Ascii.eqb b "}"%char then Some (JObj [], r1)
                     else match parse_members f (depth - 1) (String b r1) with
                          | Some (l, rest) => Some (JObj l, rest)
                          | None => None
                          end
                 | "" => None
                 end
          else if Ascii.eqb a "["%char then
            if depth =? 0 then None
            else match skip_ws r with
                 | String b r1 =>
                     if Ascii.eqb b "]"%char then Some (JArr [], r1)
                     else match parse_elements f (depth - 1) (String b r1) with
                          | Some (l, rest) => Some (JArr l, rest)
                          | None => None
                          end
                 | "" => None
                 end
          else if Ascii.eqb a quote then
            match scan_string r with
            | Some (l, rest) => Some (JStr (unquote l), rest)
            | None => None
            end
          else if Ascii.eqb a "t"%char then
            match strip_prefix "true" t with
            | Some rest => Some (JBool true, rest) | None => None end
          else if Ascii.eqb a "f"%char then
            match strip_prefix "false" t with
            | Some rest => Some (JBool false, rest) | None => None end
          else if Ascii.eqb a "n"%char then
            match strip_prefix "null" t with
            | Some rest => Some (JNull, rest) | None => None end
          else match scan_number t with
               | Some (lit, rest) => Some (JNum lit, rest)
               | None => None
               end
      end
  end
with parse_members (fuel : nat) (depth : N) (s : string)
  : option (list (string * json) * string) :=
  match fuel with
  | O => None
  | S f =>
      match skip_ws s with
      | String a r =>
          if negb (Ascii.eqb a quote) then None
          else match scan_string r with
               | None => None
               | Some (k, r1) =>
                   match skip_ws r1 with
                   | String b r2 =>
                       if negb (Ascii.eqb b ":"%char) then None
                       else match parse_value f depth r2 with
                            | None => None
                            | Some (v, r3) =>
                                match skip_ws r3 with
                                | String c r4 =>
                                    if Ascii.eqb c "}"%char then Some ([(unquote k, v)], r4)
                                    else if Ascii.eqb c ","%char then
                                      match parse_members f depth r4 with
                                      | Some (l, rest) => Some ((unquote k, v) :: l, rest)
                                      | None => None
                                      end
                                    else None
                                | "" => None
                                end
                            end
                   | "" => None
                   end
               end
      | "" => None
      end
  end
with parse_elements (fuel : nat) (depth : N) (s : string)
  : option (list json * string) :=
  match fuel with
  | O => None
  | S f =>
      match parse_value f depth s with
      | None => None
      | Some (v, r) =>
          match skip_ws r with
          | String c r1 =>
              if Ascii.eqb c "]"%char then Some ([v], r1)
              else if Ascii.eqb c ","%char then
                match parse_elements f depth r1 with
                | Some (l, rest) => Some (v :: l, rest)
                | None => None
                end
              else None
          | "" => None
          end
      end
  end.

(** scanner.go maxNestingDepth. *)
Definition max_depth : N := 10000.

(** The whole input must be one value (decode.go checkValid). *)
Definition json_parse (s : string) : option json :=
  match parse_value (S (slen s)) max_depth s with
  | Some (j, rest) => if seqb (skip_ws rest) "" then Some j else None
  | None => None
  end.

(** *** Struct decoding (decode.go object): a key selects the field of exactly
    that name, else the one equal under simple Unicode case folding. For the
    lower-case ASCII names in /repo the only non-ASCII characters that fold to
    a letter are U+017F (s) and U+212A (k). *)
Fixpoint fold_key (s : string) : string :=
  match s with
  | "" => ""
  | String a r =>
      match r with
      | String b r1 =>
          if (ord a =? 197) && (ord b =? 191) then String "s" (fold_key r1)
          else match r1 with
               | String c r2 =>
                   if (ord a =? 226) && (ord b =? 132) && (ord c =? 170)
                   then String "k" (fold_key r2)
                   else String (lower_byte a) (fold_key r)
               | "" => String (lower_byte a) (fold_key r)
               end
      | "" => String (lower_byte a) (fold_key r)
      end
  end.
(** decode.go object: does a key select the field? *)
Definition field_match (name key : string) : bool := seqb key name || seqb (fold_key key) name.

(** The members that select the field [name], in order. *)
Definition members (name : string) (o : list (string * json)) : list json :=
  map snd (List.filter (fun kv => field_match name (fst kv)) o).

(** Store the members one after the other into a field; [None] is a type error. *)
Definition decode_field {A} (f : A -> json -> option A) (init : A) (name : string)
  (o : list (string * json)) : option A :=
  fold_left (fun acc v => match acc with Some x => f x v | None => None end)
    (members name o) (Some init).

(** Kinds string, bool and int/int64: null leaves the field unchanged. *)
Definition store_string (old : string) (v : json) : option string :=
  match v with JStr s => Some s | JNull => Some old | _ => None end.
(** decode.go literalStore for kind bool. *)
Definition store_bool (old : bool) (v : json) : option bool :=
  match v with JBool b => Some b | JNull => Some old | _ => None end.

(** strconv.ParseInt(literal, 10, 64) on a JSON number literal. *)
Definition parse_int64 (s : string) : option Z :=
  let z := match s with
           | String a r => if Ascii.eqb a "-"%char
                           then option_map (fun n => (- Z.of_N n)%Z) (dec_value r 0)
                           else option_map Z.of_N (dec_value s 0)
           | "" => None
           end in
  match z with
  | Some v => if ((-9223372036854775808 <=? v)%Z && (v <=? 9223372036854775807)%Z)
              then Some v else None
  | None => None
  end.
(** decode.go literalStore for kinds int and int64. *)
Definition store_int (old : Z) (v : json) : option Z :=
  match v with JNum lit => parse_int64 lit | JNull => Some old | _ => None end.

(** *** Kinds interface{} and map[string]interface{} (field Extra of
    IntrospectionResponse, introspection.go:77)

    A Go value of type interface{} as json.Unmarshal builds it is represented
    by the JSON value it is encoded as: a map by its members in the order of
    the keys, in which encode.go mapEncoder writes them, and a float64 by its
    literal. *)
Fixpoint map_put (k : string) (v : json) (m : list (string * json)) : list (string * json) :=
  match m with
  | [] => [(k, v)]
  | (k', v') :: r => if seqb k k' then (k, v) :: r
                     else if str_leb k k' then (k, v) :: (k', v') :: r
                     else (k', v') :: map_put k v r
  end.
(** decode.go object for a map: the members are put one after the other. *)
Definition map_put_all (l m : list (string * json)) : list (string * json) :=
  fold_left (fun m kv => map_put (fst kv) (snd kv) m) l m.

(** All or nothing. *)
Fixpoint all_some {A} (l : list (option A)) : option (list A) :=
  match l with
  | [] => Some []
  | Some x :: r => option_map (cons x) (all_some r)
  | None :: _ => None
  end.
(** decode.go valueInterface, with convertNumber for numbers; [None] is an
    UnmarshalTypeError, a number that is out of range. *)
Fixpoint any_of_json (j : json) : option json :=
  match j with
  | JNum lit => option_map (fun f => JNum (format_float f)) (parse_float lit)
  | JArr l => option_map JArr (all_some (map any_of_json l))
  | JObj l => option_map (fun l => JObj (map_put_all l []))
                (all_some (map (fun kv => option_map (pair (fst kv)) (any_of_json (snd kv))) l))
  | _ => Some j
  end.
(** The members of an object that is decoded into a map. *)
Definition any_members (l : list (string * json)) : option (list (string * json)) :=
  all_some (map (fun kv => option_map (pair (fst kv)) (any_of_json (snd kv))) l).

(** decode.go object and literalStore for a map; [None] is the nil map. A
    second object adds to the map. *)
Definition go_map := option (list (string * json)).
(** decode.go object and literalStore for the field Extra (introspection.go:77). *)
Definition store_map (old : go_map) (v : json) : option go_map :=
  match v with
  | JObj l => option_map (fun l => Some (map_put_all l (default [] old))) (any_members l)
  | JNull => Some None
  | _ => None
  end.
