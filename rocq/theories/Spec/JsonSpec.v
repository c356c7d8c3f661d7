(** JSON string literals (RFC 8259, section 7). *)
From Coq Require Import Ascii String NArith List.
From stdpp Require Import prelude strings.
From Verif.Spec Require Import ScopeSpec.
Local Open Scope N_scope.

Definition dq : ascii := "034".
Definition backslash : ascii := "092".

Definition json_blank (s : string) : Prop :=
  Forall (fun c => In c [" "; "009"; "010"; "013"]%char) (list_ascii_of_string s).

Definition hex_digit (c : ascii) (n : N) : Prop :=
  nth_error (list_ascii_of_string "0123456789abcdef") (N.to_nat n) = Some c \/
  nth_error (list_ascii_of_string "0123456789ABCDEF") (N.to_nat n) = Some c.

(** \uXXXX denotes the code unit n. *)
Definition unicode_escape (s : string) (n : N) : Prop :=
  exists c1 c2 c3 c4 n1 n2 n3 n4,
    hex_digit c1 n1 /\ hex_digit c2 n2 /\ hex_digit c3 n3 /\ hex_digit c4 n4 /\
    n = ((n1 * 16 + n2) * 16 + n3) * 16 + n4 /\
    s = String backslash (String "u" (String c1 (String c2 (String c3 (String c4 ""))))).

Definition short_escapes : list (ascii * ascii) :=
  [ (dq, dq); (backslash, backslash); ("/", "/")%char; ("b", "008")%char; ("f", "012")%char;
    ("n", "010")%char; ("r", "013")%char; ("t", "009")%char ].

(** [literal_body text value]: the text between the quotes and the string it
    denotes. *)
Inductive literal_body : string -> string -> Prop :=
| lit_nil : literal_body "" ""
| lit_plain n t v : scalar_value n -> 0x20 <= n -> n <> 0x22 -> n <> 0x5C ->
    literal_body t v -> literal_body (utf8 n +:+ t) (utf8 n +:+ v)
| lit_short e b t v : In (e, b) short_escapes ->
    literal_body t v -> literal_body (String backslash (String e t)) (String b v)
| lit_unicode u n t v : unicode_escape u n -> scalar_value n ->
    literal_body t v -> literal_body (u +:+ t) (utf8 n +:+ v)
| lit_pair u1 u2 hi lo t v : unicode_escape u1 hi -> unicode_escape u2 lo ->
    0xD800 <= hi < 0xDC00 -> 0xDC00 <= lo < 0xE000 ->
    literal_body t v ->
    literal_body (u1 +:+ u2 +:+ t)
      (utf8 (0x10000 + (hi - 0xD800) * 0x400 + (lo - 0xDC00)) +:+ v).

(** A JSON text consisting of one string. *)
Definition json_string_text (text value : string) : Prop :=
  exists b1 b2 body, json_blank b1 /\ json_blank b2 /\ literal_body body value /\
    text = b1 +:+ String dq (body +:+ String dq b2).
Definition json_null_text (text : string) : Prop :=
  exists b1 b2, json_blank b1 /\ json_blank b2 /\ text = b1 +:+ "null" +:+ b2.
