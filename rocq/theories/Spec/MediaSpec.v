(** Content types (RFC 2045, section 5.1), with the liberties of the package mime:
    white space around everything, a trailing semicolon, and backslashes that escape
    nothing. *)
From Verif.Model Require Import GoStr.
From Verif.Spec Require Import ScopeSpec WireSpec.

#[local] Open Scope string_scope.

(** A token. *)
Definition token_byte (c : ascii) : Prop :=
  (33 <= N_of_ascii c <= 126)%N /\
  ~ In c (list_ascii_of_string "()<>@,;:\/[]?=") /\ c <> "034"%char.
Definition mime_token (s : string) : Prop :=
  s <> "" /\ forall c, In c (list_ascii_of_string s) -> token_byte c.

(** The inside of a quoted string: a backslash escapes one of the characters that may
    not occur in tokens, and is itself before any other; there are no line breaks. *)
Definition special (c : ascii) : Prop := In c (list_ascii_of_string "()<>@,;:\/[]?=") \/ c = "034"%char.
Inductive inside_quotes : string -> Prop :=
| inside_end : inside_quotes ""
| inside_plain c s : ~ In c ["034"; "092"; "013"; "010"]%char -> inside_quotes s -> inside_quotes (String c s)
| inside_escape c s : special c -> inside_quotes s -> inside_quotes (String "092" (String c s))
| inside_backslash c s : ~ special c -> inside_quotes (String c s) -> inside_quotes (String "092" (String c s)).
Definition quoted (v : string) : Prop :=
  exists s, inside_quotes s /\ v = String "034" (s +:+ String "034" "").

(** Parameters, as in "; charset=utf-8". No name comes twice, whatever the case of its
    letters. *)
Inductive parameters (earlier : list string) : string -> Prop :=
| parameters_end w : only_white w -> parameters earlier w
| parameters_semicolon w1 w2 : only_white w1 -> only_white w2 -> parameters earlier (w1 +:+ ";" +:+ w2)
| parameters_more w1 w2 w3 w4 name value rest :
    only_white w1 -> only_white w2 -> only_white w3 -> only_white w4 ->
    mime_token name -> (forall e, In e earlier -> ~ same_ignoring_case name e) ->
    mime_token value \/ quoted value -> parameters (name :: earlier) rest ->
    parameters earlier (w1 +:+ ";" +:+ w2 +:+ name +:+ w3 +:+ "=" +:+ w4 +:+ value +:+ rest).

(** A type in small letters, such as "text/html" or "attachment", and how it may be
    spelt. Two characters beyond ASCII have small letters within: the dotted capital I
    and the Kelvin sign. *)
Definition type_name (t : string) : Prop :=
  mime_token t \/ exists main sub, mime_token main /\ mime_token sub /\ t = main +:+ "/" +:+ sub.
Definition capital (c : ascii) : Prop := (65 <= N_of_ascii c <= 90)%N.
Inductive spelt : string -> string -> Prop :=
| spelt_end : spelt "" ""
| spelt_letter a c s t : same_letter a c -> ~ capital c -> spelt s t -> spelt (String a s) (String c t)
| spelt_dotted s t : spelt s t -> spelt (utf8 0x130 +:+ s) (String "i" t)
| spelt_kelvin s t : spelt s t -> spelt (utf8 0x212A +:+ s) (String "k" t).

(** The content type [ct] names the type [t]. *)
Definition typed (t ct : string) : Prop :=
  exists w1 b w2 rest, only_white w1 /\ only_white w2 /\ type_name t /\ spelt b t /\ parameters [] rest /\
    ct = w1 +:+ b +:+ w2 +:+ rest.
