(** The grammar of the values in answers: RFC 6749 (sections 3.3 and 5.2) and RFC
    6750 (section 2.1). *)
From Verif.Model Require Import Server.

Definition made_of (ok : ascii -> Prop) (str : string) : Prop := forall c, In c (list_ascii_of_string str) -> ok c.
Definition code_between (lo hi : N) (c : ascii) : Prop := (lo <= N_of_ascii c <= hi)%N.

(** error and error_description: %x20-21 / %x23-5B / %x5D-7E, that is printable ASCII
    but the quote and the backslash. *)
Definition error_char (c : ascii) : Prop := code_between 32 33 c \/ code_between 35 91 c \/ code_between 93 126 c.
(** scope-token: the same without the space. *)
Definition scope_char (c : ascii) : Prop := code_between 33 33 c \/ code_between 35 91 c \/ code_between 93 126 c.
Definition scope_token (x : string) : Prop := x <> "" /\ made_of scope_char x.
(** scope: scope-tokens with a space between them. *)
Definition scope_value (x : string) : Prop := exists l, l <> [] /\ Forall scope_token l /\ x = String.concat " " l.
(** b64token: 1*( ALPHA / DIGIT / "-" / "." / "_" / "~" / "+" / "/" ) *"=". *)
Definition b64_char (c : ascii) : Prop :=
  code_between 65 90 c \/ code_between 97 122 c \/ code_between 48 57 c \/ In c ["-"; "."; "_"; "~"; "+"; "/"]%char.
Definition b64token (x : string) : Prop :=
  exists body pad, x = body +:+ pad /\ body <> "" /\ made_of b64_char body /\ made_of (fun c => c = "="%char) pad.

(** The scopes the server is configured with are scope-tokens. *)
Definition grammatical_config (cfg : server_config) : Prop := Forall scope_token (items (cfg_allowed_scope cfg)).

(** A member of an answer. *)
Definition grammatical_member (k x : string) : Prop :=
  (In k ["error"; "error_description"] -> x <> "" /\ made_of error_char x) /\
  (In k ["access_token"; "refresh_token"] -> b64token x) /\
  (k = "scope" -> scope_value x) /\ (k = "token_type" -> x = "bearer").
