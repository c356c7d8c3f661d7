(** Go strings.

    A Go string is a finite sequence of bytes; [string] of the Coq standard
    library (a list of 8-bit [ascii]) is exactly that, and is used for Go's
    [string] and [[]byte] alike.

    This file models the functions of the Go standard library packages
    [strings], [sort] and [strconv] that the code in /repo calls. They are not
    part of /repo; each definition names the call sites it serves. *)
From Coq Require Export Ascii String NArith ZArith Lia.
From stdpp Require Export prelude strings gmap sorting.

(** Go's [len] of a string. *)
Notation slen := String.length.

(** Byte value of a character. *)
Definition ord (a : ascii) : N := N_of_ascii a.
(** The character with a byte value. *)
Definition chr (n : N) : ascii := ascii_of_N n.

(** One-character string. *)
Definition str1 (a : ascii) : string := String a "".

(** [s == t] on strings (used wherever /repo compares strings with == or !=). *)
Definition seqb (s t : string) : bool := String.eqb s t.

(** [strings.Split(s, sep)] for a one-byte separator
    (scope.go:14, hs256.go:84). Never returns an empty list. *)
Fixpoint split (c : ascii) (s : string) : list string :=
  match s with
  | "" => [""]
  | String a r =>
      if Ascii.eqb a c then "" :: split c r
      else match split c r with
           | h :: t => String a h :: t
           | [] => [String a ""]
           end
  end.

(** [strings.Join(l, sep)] (scope.go:61, error.go:103). *)
Definition join (sep : string) (l : list string) : string := String.concat sep l.

(** Cut a string around the first occurrence of a byte
    ([strings.Index(s, "c")] followed by the two slices; in net/url and
    net/http behind oauth2.go:93, authorization.go:28, token.go:41). *)
Fixpoint cut (c : ascii) (s : string) : option (string * string) :=
  match s with
  | "" => None
  | String a r =>
      if Ascii.eqb a c then Some ("", r)
      else match cut c r with
           | Some (x, y) => Some (String a x, y)
           | None => None
           end
  end.

(** Cut a string around the last occurrence of a byte
    ([strings.LastIndexByte], server.go:133, and net/url). *)
Fixpoint last_cut (c : ascii) (s : string) : option (string * string) :=
  match s with
  | "" => None
  | String a r =>
      match last_cut c r with
      | Some (x, y) => Some (String a x, y)
      | None => if Ascii.eqb a c then Some ("", r) else None
      end
  end.

(** [strings.Contains(s, "c")] for one byte. *)
Fixpoint contains (c : ascii) (s : string) : bool :=
  match s with
  | "" => false
  | String a r => Ascii.eqb a c || contains c r
  end.

(** Every byte satisfies [p]. *)
Fixpoint all_bytes (p : ascii -> bool) (s : string) : bool :=
  match s with
  | "" => true
  | String a r => p a && all_bytes p r
  end.

(** Keep the bytes satisfying [p]. *)
Fixpoint sfilter (p : ascii -> bool) (s : string) : string :=
  match s with
  | "" => ""
  | String a r => if p a then String a (sfilter p r) else sfilter p r
  end.

(** Replace each byte by a string, left to right. *)
Fixpoint flat_map_bytes (f : ascii -> string) (s : string) : string :=
  match s with
  | "" => ""
  | String a r => f a +:+ flat_map_bytes f r
  end.

(** [strings.HasPrefix] returning the rest. *)
Fixpoint strip_prefix (p s : string) : option string :=
  match p, s with
  | "", _ => Some s
  | String a p', String b s' => if Ascii.eqb a b then strip_prefix p' s' else None
  | String _ _, "" => None
  end.

(** [s[:n]] and [s[n:]]; [None] is the run-time panic "slice bounds out of
    range" (bearer.go:38, 43, 48). *)
Fixpoint take_str (n : nat) (s : string) : option string :=
  match n, s with
  | O, _ => Some ""
  | S n', String a r => match take_str n' r with Some x => Some (String a x) | None => None end
  | S _, "" => None
  end.
(** [s[n:]] (bearer.go:48). *)
Fixpoint drop_str (n : nat) (s : string) : option string :=
  match n, s with
  | O, _ => Some s
  | S n', String _ r => drop_str n' r
  | S _, "" => None
  end.
(** [s[i:j]]. *)
Definition slice_str (i j : nat) (s : string) : option string :=
  match take_str j s with
  | Some x => drop_str i x
  | None => None
  end.

(** ASCII case mapping ([strings.ToLower] and the ASCII part of
    [strings.EqualFold]). *)
Definition is_upper (a : ascii) : bool := (65 <=? ord a)%N && (ord a <=? 90)%N.
(** 'a' to 'z'. *)
Definition is_lower (a : ascii) : bool := (97 <=? ord a)%N && (ord a <=? 122)%N.
(** '0' to '9'. *)
Definition is_digit (a : ascii) : bool := (48 <=? ord a)%N && (ord a <=? 57)%N.
(** unicode.ToLower on an ASCII byte. *)
Definition lower_byte (a : ascii) : ascii := if is_upper a then chr (ord a + 32) else a.
(** unicode.ToUpper on an ASCII byte (used by textproto.CanonicalMIMEHeaderKey). *)
Definition upper_byte (a : ascii) : ascii := if is_lower a then chr (ord a - 32) else a.
(** strings.Map for a function on bytes. *)
Fixpoint map_bytes (f : ascii -> ascii) (s : string) : string :=
  match s with
  | "" => ""
  | String a r => String (f a) (map_bytes f r)
  end.
(** strings.ToLower on ASCII text (bytes above 127 are kept; see the uses). *)
Definition to_lower (s : string) : string := map_bytes lower_byte s.

(** [strings.EqualFold(s, t)] for an ASCII [t] without the letters k and s
    (bearer.go:38 with t = "bearer") or where the extra foldings of k and s
    (U+212A, U+017F, both longer than one byte) cannot give the same length
    (net/http's "Basic " prefix). Then simple Unicode folding is ASCII
    folding. *)
Definition equal_fold (s t : string) : bool := seqb (to_lower s) (to_lower t).

(** ** [strings.TrimSpace] (scope.go:22)

    [unicode.IsSpace] holds for the ASCII characters \t \n \v \f \r and space,
    for U+0085 and U+00A0, and for the code points with property White_Space
    above U+00FF. Because a valid UTF-8 encoding of a code point is unique and
    [DecodeRune]/[DecodeLastRune] return RuneError (not a space) for anything
    else, trimming a space rune at an end is removing one of these byte
    sequences. *)
Definition space_encodings : list string :=
  ([ str1 "009"; str1 "010"; str1 "011"; str1 "012"; str1 "013"; str1 "032" ]%char
  ++ [ String "194" (str1 "133"); String "194" (str1 "160") ]%char           (* U+0085 U+00A0 *)
  ++ [ String "225" (String "154" (str1 "128")) ]%char                       (* U+1680 *)
  ++ map (fun c => String "226" (String "128" (str1 c)))%char                (* U+2000-200A, 2028, 2029, 202F *)
       [ "128"; "129"; "130"; "131"; "132"; "133"; "134"; "135"; "136"; "137"; "138";
         "168"; "169"; "175" ]%char
  ++ [ String "226" (String "129" (str1 "159")) ]%char                       (* U+205F *)
  ++ [ String "227" (String "128" (str1 "128")) ]%char)%list.                (* U+3000 *)

(** The rest of [s] after one leading space rune, if there is one. *)
Definition strip_one (encs : list string) (s : string) : option string :=
  fold_right (fun e acc => match strip_prefix e s with Some r => Some r | None => acc end)
    None encs.

(** Remove leading space runes; [fuel] bounds the number of removals and is
    always given as the length of the string. *)
Fixpoint trim_left_fuel (encs : list string) (fuel : nat) (s : string) : string :=
  match fuel with
  | O => s
  | S f => match strip_one encs s with
           | Some r => trim_left_fuel encs f r
           | None => s
           end
  end.
(** Remove all leading encodings from a list (strings.TrimLeftFunc). *)
Definition trim_left_with (encs : list string) (s : string) : string :=
  trim_left_fuel encs (slen s) s.

(** Reversal with an accumulator; only used to trim at the right end. *)
Fixpoint srev_app (s acc : string) : string :=
  match s with
  | "" => acc
  | String a r => srev_app r (String a acc)
  end.
(** The bytes in reverse order. *)
Definition srev (s : string) : string := srev_app s "".

(** strings.TrimLeftFunc(s, unicode.IsSpace). *)
Definition trim_left (s : string) : string := trim_left_with space_encodings s.
(** strings.TrimRightFunc(s, unicode.IsSpace), written as trimming the reversed string
    at the left. *)
Definition trim_right (s : string) : string :=
  srev (trim_left_with (map srev space_encodings) (srev s)).
(** strings.TrimSpace (scope.go:22). *)
Definition trim_space (s : string) : string := trim_right (trim_left s).

(** ** [sort.Strings] (error.go:101, and net/url's Values.Encode):
    bytewise lexicographic order. *)
Fixpoint str_leb (s t : string) : bool :=
  match s, t with
  | "", _ => true
  | String _ _, "" => false
  | String a s', String b t' =>
      if (ord a <? ord b)%N then true
      else if (ord b <? ord a)%N then false
      else str_leb s' t'
  end.
(** Go's [<=] on strings. *)
Definition str_le (s t : string) : Prop := str_leb s t = true.
(** The order is decidable, as merge_sort requires. *)
Global Instance str_le_dec s t : Decision (str_le s t).
Proof. unfold str_le. apply _. Defined.
(** sort.Strings; equal strings are indistinguishable, so the result does not depend on
    the algorithm. *)
Definition sort_strings (l : list string) : list string := merge_sort str_le l.

(** ** [strconv.Itoa] (token.go:149) and the decimal rendering of integers in
    encoding/json. *)
Definition digit_char (n : N) : ascii := chr (48 + n).
(** strconv formatBits with base 10, digits from the right; the fuel bounds the number
    of digits. *)
Fixpoint dec_fuel (fuel : nat) (n : N) (acc : string) : string :=
  match fuel with
  | O => acc
  | S f => let acc' := String (digit_char (n mod 10)) acc in
           if (n <? 10)%N then acc' else dec_fuel f (n / 10) acc'
  end.
(** The decimal digits of a non-negative number. *)
Definition dec_of_N (n : N) : string := dec_fuel (S (N.to_nat (N.log2 n))) n "".
(** strconv.Itoa and strconv.FormatInt with base 10. *)
Definition itoa (z : Z) : string :=
  match z with
  | Z0 => "0"
  | Zpos p => dec_of_N (Npos p)
  | Zneg p => String "-" (dec_of_N (Npos p))
  end.

Global Arguments N_of_ascii : simpl never.
Global Arguments ascii_of_N : simpl never.
