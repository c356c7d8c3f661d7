(** Vocabulary for the properties about headers, error documents and redirects. *)
From Verif.Model Require Import GoStr Errors.
From Verif.Spec Require Import ScopeSpec.

(** Equal up to the case of ASCII letters. *)
Definition same_letter (a b : ascii) : Prop :=
  a = b \/ exists n, n < 26 /\
    ((a = ascii_of_nat (65 + n) /\ b = ascii_of_nat (97 + n)) \/
     (a = ascii_of_nat (97 + n) /\ b = ascii_of_nat (65 + n))).
Definition same_ignoring_case (s t : string) : Prop :=
  Forall2 same_letter (list_ascii_of_string s) (list_ascii_of_string t).

(** ** Reading a challenge (RFC 7235, sections 2.1 and C)

    [auth-param = token "=" quoted-string], separated by commas and blanks; a
    backslash inside the quotes escapes the next character. *)
Definition dq_char : ascii := "034".
Definition bs_char : ascii := "092".

Fixpoint read_quoted (s : string) : option (string * string) :=
  match s with
  | "" => None
  | String a r =>
      if Ascii.eqb a dq_char then Some ("", r)
      else if Ascii.eqb a bs_char then
        match r with
        | "" => None
        | String b r1 => match read_quoted r1 with
                         | Some (x, rest) => Some (String b x, rest)
                         | None => None
                         end
        end
      else match read_quoted r with
           | Some (x, rest) => Some (String a x, rest)
           | None => None
           end
  end.

(** The text before the first '=', which must be one. *)
Fixpoint read_name (s : string) : option (string * string) :=
  match s with
  | "" => None
  | String a r => if Ascii.eqb a "="%char then Some ("", r)
                  else match read_name r with
                       | Some (x, rest) => Some (String a x, rest)
                       | None => None
                       end
  end.

Fixpoint skip_separator (s : string) : string :=
  match s with
  | String a r => if Ascii.eqb a ","%char || Ascii.eqb a " "%char then skip_separator r else s
  | "" => ""
  end.

Fixpoint read_auth_params (fuel : nat) (s : string) : option (list (string * string)) :=
  match fuel with
  | O => None
  | S f =>
      match s with
      | "" => Some []
      | _ =>
          match read_name s with
          | Some (name, String q r) =>
              if Ascii.eqb q dq_char then
                match read_quoted r with
                | Some (value, rest) =>
                    match read_auth_params f (skip_separator rest) with
                    | Some l => Some ((name, value) :: l)
                    | None => None
                    end
                | None => None
                end
              else None
          | _ => None
          end
      end
  end.

(** The parameters of a challenge with the given scheme. *)
Definition read_challenge (scheme header : string) : option (list (string * string)) :=
  match strip_prefix (scheme +:+ " ") header with
  | Some ps => read_auth_params (S (slen ps)) ps
  | None => None
  end.

(** A text that needs no escaping in a quoted-string. *)
Definition quotable (s : string) : Prop :=
  ~ In dq_char (list_ascii_of_string s) /\ ~ In bs_char (list_ascii_of_string s).

(** ** The parameters of an error (RFC 6749 section 5.2, RFC 6750 section 3) *)
Definition error_param (e : error) (k v : string) : Prop :=
  (k = "error" /\ v = e_name e /\ v <> "") \/
  (k = "error_description" /\ v = e_description e /\ v <> "") \/
  (k = "error_uri" /\ v = e_uri e /\ v <> "") \/
  (k = "realm" /\ v = e_realm e /\ v <> "") \/
  (k = "state" /\ v = e_state e /\ v <> "") \/
  (k = "scope" /\ items (e_scope e) <> [] /\ v = join " " (items (e_scope e))).

(** The members of an error document: the name is always there. *)
Definition error_member (e : error) (k v : string) : Prop :=
  (k = "error" /\ v = e_name e) \/ (k <> "error" /\ error_param e k v).

(** All texts of the error are valid UTF-8 (JSON cannot carry anything else). *)
Definition error_fields_utf8 (e : error) : Prop :=
  valid_utf8 (e_name e) /\ valid_utf8 (e_state e) /\ Forall valid_utf8 (items (e_scope e)) /\
  valid_utf8 (e_realm e) /\ valid_utf8 (e_description e) /\ valid_utf8 (e_uri e).

(** A response writer nothing was written to yet; headers may be set. *)
Definition unsent (w : rw) : Prop := rw_sent w = None /\ rw_body w = "".

(** The headers of an error document. *)
Definition json_header (k : string) (l : list string) : Prop :=
  (k = "Content-Type" /\ l = ["application/json;charset=UTF-8"]) \/
  (k = "Cache-Control" /\ l = ["no-store"]) \/
  (k = "Pragma" /\ l = ["no-cache"]).
Definition document_header (e : error) (k : string) (l : list string) : Prop :=
  json_header k l \/
  (k <> "Content-Type" /\ k <> "Cache-Control" /\ k <> "Pragma" /\
   exists n v, e_headers e !! n = Some v /\ canonical_key n = k /\ l = [v]).

(** No two headers of the error denote the same HTTP header. *)
Definition distinct_headers (e : error) : Prop :=
  forall n m, is_Some (e_headers e !! n) -> is_Some (e_headers e !! m) ->
    canonical_key n = canonical_key m -> n = m.

(** Status codes with a body (RFC 7230, section 3.3.3). *)
Definition valid_status (c : Z) : Prop := (100 <= c <= 999)%Z.
Definition status_with_body (c : Z) : Prop :=
  (200 <= c <= 999)%Z /\ c <> 204%Z /\ c <> 304%Z.

(** ** Redirects *)

(** The URI characters of RFC 3986 are ASCII. *)
Definition ascii_text (s : string) : Prop :=
  forall a, In a (list_ascii_of_string s) -> (N_of_ascii a < 128)%N.
Definition without (a : ascii) (s : string) : Prop := ~ In a (list_ascii_of_string s).

(** Same resource: everything before the query. *)
Definition same_target (u v : url) : Prop :=
  u_scheme v = u_scheme u /\ u_opaque v = u_opaque u /\ u_user v = u_user u /\
  u_host v = u_host u /\ u_path v = u_path u.

(** The values of a key in decoded form data, in order. *)
Definition values_of (v : values) (k : string) : list string := default [] (v !! k).
(** The one value a parameter map gives to a key. *)
Definition param_values (m : gmap string string) (k : string) : list string :=
  match m !! k with Some x => [x] | None => [] end.

(** [q] is form data that decodes without error to the given values. *)
Definition form_decodes (q : string) (f : string -> list string) : Prop :=
  exists v, parse_query q = (v, true) /\ forall k, values_of v k = f k.

(** The part of a Location after '#', empty if there is none. *)
Definition fragment_of (loc : string) : string :=
  match cut "#" loc with Some (_, f) => f | None => "" end.
Definition before_fragment (loc : string) : string :=
  match cut "#" loc with Some (b, _) => b | None => loc end.

(** Characters a form encoder leaves alone, and the blank, which becomes '+'. *)
Definition plain_char (a : ascii) : Prop :=
  let n := N_of_ascii a in
  (48 <= n <= 57)%N \/ (65 <= n <= 90)%N \/ (97 <= n <= 122)%N \/
  a = "-"%char \/ a = "_"%char \/ a = "."%char \/ a = "~"%char \/ a = " "%char.
Definition plain_text (s : string) : Prop :=
  forall a, In a (list_ascii_of_string s) -> plain_char a.

(** Percent-encoding of everything else. *)
Definition plain_byte (a : ascii) : bool :=
  let n := N_of_ascii a in
  ((48 <=? n) && (n <=? 57) || (65 <=? n) && (n <=? 90) || (97 <=? n) && (n <=? 122))%N
  || existsb (Ascii.eqb a) ["-"; "_"; "."; "~"; " "]%char.
Definition upper_hex (n : nat) : ascii :=
  match String.get n "0123456789ABCDEF" with Some c => c | None => "0"%char end.
Fixpoint percent_encoded (s : string) : string :=
  match s with
  | "" => ""
  | String a r =>
      if plain_byte a then String a (percent_encoded r)
      else String "%" (String (upper_hex (nat_of_ascii a / 16)) (String (upper_hex (nat_of_ascii a mod 16))
             (percent_encoded r)))
  end.

(** ** Caching (RFC 6749 section 5.1) *)
Definition not_cacheable (h : headers) : Prop :=
  h !! "Cache-Control" = Some ["no-store"] /\ h !! "Pragma" = Some ["no-cache"].
(** The bodies of the answers that carry nothing confidential: the empty one of
    a revocation, the hint for a GET of the authorization endpoint and the one
    for an unknown path. *)
Definition fixed_body (b : string) : Prop :=
  b = "" \/
  b = "This authentication server does not provide an authorization form." +:+ String "010" ""
      +:+ "Please submit the resource owners username and password in a POST request." \/
  b = "404 page not found" +:+ String "010" "".
