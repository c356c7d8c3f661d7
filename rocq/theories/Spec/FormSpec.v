(** Vocabulary of C75: what a client has written into the body and the query of a
    request (HTML 4.01, section 17.13.4.1, with the liberties of net/url). *)
From Verif.Model Require Import Server.
From Verif.Spec Require Import ScopeSpec WireSpec RequestSpec.
From Verif.Spec Require Export MediaSpec.

(** ** Text *)

(** A hexadecimal digit and its value. *)
Definition hex_digit (c : ascii) (n : N) : Prop :=
  let a := N_of_ascii c in
  ((48 <= a <= 57 /\ a = 48 + n) \/ (65 <= a <= 70 /\ a = 55 + n) \/ (97 <= a <= 102 /\ a = 87 + n))%N.

(** "+" stands for a blank, "%" and two digits for a byte, and any other byte for
    itself. *)
Inductive stands_for : string -> string -> Prop :=
| stands_end : stands_for "" ""
| stands_blank s t : stands_for s t -> stands_for (String "+" s) (String " " t)
| stands_byte h l x y s t : hex_digit h x -> hex_digit l y -> stands_for s t ->
    stands_for (String "%" (String h (String l s))) (String (ascii_of_N (16 * x + y)) t)
| stands_plain c s t : c <> "+"%char -> c <> "%"%char -> stands_for s t ->
    stands_for (String c s) (String c t).

(** One field: nothing, a key alone, or a key and a value. *)
Inductive field_says : string -> list (string * string) -> Prop :=
| field_none : field_says "" []
| field_key k key : k <> "" -> without "=" k -> stands_for k key -> field_says k [(key, "")]
| field_pair k v key value : without "=" k -> stands_for k key -> stands_for v value ->
    field_says (k +:+ "=" +:+ v) [(key, value)].

(** The fields are separated by "&" or ";". *)
Inductive says : string -> list (string * string) -> Prop :=
| says_last f l : without "&" f -> without ";" f -> field_says f l -> says f l
| says_more f sep rest l l' : without "&" f -> without ";" f -> field_says f l ->
    sep = "&" \/ sep = ";" -> says rest l' -> says (f +:+ sep +:+ rest) (l ++ l').

(** The value of a key: the first one, or the empty string. *)
Fixpoint written (k : string) (l : list (string * string)) : string :=
  match l with
  | [] => ""
  | (key, value) :: rest => if String.eqb key k then value else written k rest
  end.

(** ** Content types *)

(** The type of forms. *)
Definition form_type := "application/x-www-form-urlencoded".
Definition form_typed (ct : string) : Prop := typed form_type ct.
(** Another type, or none. *)
Definition other_typed (ct : string) : Prop := ct = "" \/ exists t, t <> form_type /\ typed t ct.
(** No content type. *)
Definition ill_typed (ct : string) : Prop := ct <> "" /\ forall t, ~ typed t ct.

(** ** Requests *)
Definition with_body (method : string) : Prop := method = "POST" \/ method = "PUT" \/ method = "PATCH".

(** The request comes with these fields in the body and in the query. A body that is
    not a form is not looked at. *)
Definition carries (r : request) (body query : list (string * string)) : Prop :=
  rq_preset r = None /\ says (rq_query r) query /\
  ((~ with_body (rq_method r) /\ body = []) \/
   (with_body (rq_method r) /\ exists text ends, rq_body r = Some (text, ends) /\
      ((form_typed (rq_ctype r) /\ ends = true /\ (Z.of_nat (String.length text) <= 10485760)%Z /\
        says text body) \/
       (other_typed (rq_ctype r) /\ body = [])))).

(** The fields cannot be told: the query, the body or its content type is malformed, or
    the body is missing, breaks off or is larger than 10 MiB. *)
Definition unreadable (r : request) : Prop :=
  rq_preset r = None /\
  (~ (exists l, says (rq_query r) l) \/
   (with_body (rq_method r) /\
    (rq_body r = None \/
     exists text ends, rq_body r = Some (text, ends) /\
       (ill_typed (rq_ctype r) \/
        form_typed (rq_ctype r) /\
          (ends = false \/ (10485760 < Z.of_nat (String.length text))%Z \/ ~ exists l, says text l))))).

(** The credentials of a client: of the Basic header, else of the body. *)
Definition basic_header (r : request) (id secret : string) : Prop :=
  exists scheme b, rq_auth r = scheme +:+ " " +:+ b /\ same_ignoring_case scheme "Basic" /\
    std_decode b = Some (id +:+ ":" +:+ secret) /\ without ":" id.
Definition client_named (r : request) (body : list (string * string)) (id secret : string) : Prop :=
  basic_header r id secret \/
  (~ (exists i s, basic_header r i s) /\ id = written "client_id" body /\
   secret = written "client_secret" body).

(** A redirect URI that the parsers let pass; it has been decoded once more (C24). *)
Definition passes_as_uri (u : string) : Prop :=
  exists parsed, parse_request_uri u = Some parsed /\ u_fragment parsed = "".

(** What ParseTokenRequest has to make of the fields. *)
Definition token_fields (r : request) (body : list (string * string)) (q : token_request) : Prop :=
  rq_method r = "POST" /\
  tq_grant_type q = written "grant_type" body /\ tq_grant_type q <> "" /\
  tq_scope q = parse_scope (written "scope" body) /\
  client_named r body (tq_client_id q) (tq_client_secret q) /\ tq_client_id q <> "" /\
  tq_username q = written "username" body /\ tq_password q = written "password" body /\
  tq_refresh_token q = written "refresh_token" body /\ tq_code q = written "code" body /\
  stands_for (written "redirect_uri" body) (tq_redirect_uri q) /\
  (tq_redirect_uri q = "" \/ passes_as_uri (tq_redirect_uri q)).

(** ParseAuthorizationRequest reads the body and then the query. *)
Definition authorization_fields (r : request) (fields : list (string * string))
  (q : authorization_request) : Prop :=
  (rq_method r = "GET" \/ rq_method r = "POST") /\
  aq_response_type q = written "response_type" fields /\ aq_response_type q <> "" /\
  aq_scope q = parse_scope (written "scope" fields) /\
  aq_client_id q = written "client_id" fields /\ aq_client_id q <> "" /\
  aq_state q = written "state" fields /\
  stands_for (written "redirect_uri" fields) (aq_redirect_uri q) /\
  aq_redirect_uri q <> "" /\ passes_as_uri (aq_redirect_uri q).

(** ParseIntrospectionRequest and ParseRevocationRequest. *)
Definition lookup_fields (r : request) (body : list (string * string)) (q : lookup_request) : Prop :=
  rq_method r = "POST" /\
  lq_token q = written "token" body /\ lq_token q <> "" /\
  lq_token_type_hint q = written "token_type_hint" body /\
  basic_header r (lq_client_id q) (lq_client_secret q).
