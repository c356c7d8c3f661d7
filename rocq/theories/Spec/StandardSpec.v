(** What the standards the package names ask of an authorization server, as far as
    C89 to C96 speak of it: RFC 6749 (framework), RFC 7009 (revocation) and RFC 7662
    (introspection). *)
From Verif.Model Require Import Server.
From Verif.Spec Require Import TokenSpec ScopeSpec WireSpec RequestSpec ServerSpec RefusalSpec FormSpec.

(** The answer is a document with an access token. *)
Definition gives_token (ev : env) (s : server) (r : request) : Prop :=
  exists w o t, serves ev s r w /\ status w = 200%Z /\ json_object w o /\ In ("access_token", JStr t) o.

(** ** Repeated parameters (RFC 6749 sections 3.1 and 3.2) *)
Definition fields := list (string * string).

(** A parameter comes more than once. *)
Definition repeats_a_parameter (l : fields) : Prop := ~ List.NoDup (map fst l).

(** [l'] has the fields of [l] and, each somewhere behind a field of the same name,
    further ones. *)
Inductive with_repetitions (l : fields) : fields -> Prop :=
| repeats_none : with_repetitions l l
| repeats_more front k v back : with_repetitions l (front ++ back) -> In k (map fst front) ->
    with_repetitions l (front ++ (k, v) :: back).

(** Requests that differ at most in their fields. *)
Definition same_but_fields (r r' : request) : Prop :=
  rq_method r' = rq_method r /\ rq_path r' = rq_path r /\ rq_auth r' = rq_auth r.

(** ** Client authentication (RFC 6749 sections 2.3 and 2.3.1) *)

(** The client authenticates with the header and with the body. *)
Definition authenticates_twice (r : request) (body : fields) : Prop :=
  (exists id secret, basic_header r id secret) /\ In "client_secret" (map fst body).
(** The fields other than those that name the client. *)
Definition without_client (body : fields) : fields :=
  List.filter (fun f => negb (String.eqb (fst f) "client_id" || String.eqb (fst f) "client_secret")) body.

(** The header of section 2.3.1: name and secret are encoded as form data first. *)
Definition encoded_basic_header (r : request) (id secret : string) : Prop :=
  exists x y, basic_header r x y /\ stands_for x id /\ stands_for y secret.
(** Nothing in the text is encoded. *)
Definition unencoded (x : string) : Prop := without "+" x /\ without "%" x.

(** ** Errors of the token endpoint (RFC 6749 section 5.2) *)

(** A required parameter is missing; a parameter without a value counts as missing
    (section 3.2). *)
Definition lacks_parameter (r : request) : Prop :=
  let grant := body_param r "grant_type" in
  grant = "" \/
  (grant = "password" /\ (body_param r "username" = "" \/ body_param r "password" = "")) \/
  (grant = "authorization_code" /\ body_param r "code" = "") \/
  (grant = "refresh_token" /\ body_param r "refresh_token" = "").

(** The errors that are true of a request, by name. *)
Inductive fault (ev : env) (s : server) (r : request) : string -> Prop :=
| fault_malformed : (~ exists q, parse_token_request r = inl q) -> fault ev s r "invalid_request"
| fault_missing : lacks_parameter r -> fault ev s r "invalid_request"
| fault_client : unauthenticated s r -> fault ev s r "invalid_client"
| fault_password id : token_request_for s r id "password" ->
    ~ password_of s (body_param r "username") (body_param r "password") -> fault ev s r "invalid_grant"
| fault_code id : token_request_for s r id "authorization_code" -> ~ redeemable ev s r id ->
    fault ev s r "invalid_grant"
| fault_refresh id : token_request_for s r id "refresh_token" -> (forall d, ~ refreshable ev s r id d) ->
    fault ev s r "invalid_grant"
| fault_unauthorized id : token_request_for s r id "client_credentials" ->
    (forall c, sv_clients s !! id = Some c -> en_confidential c = false) -> fault ev s r "unauthorized_client"
| fault_grant_type : body_param r "grant_type" <> "" -> ~ In (body_param r "grant_type") grant_types ->
    fault ev s r "unsupported_grant_type"
| fault_scope : ~ allowed_scope s (body_param r "scope") ->
    In (body_param r "grant_type") ["password"; "client_credentials"] -> fault ev s r "invalid_scope"
| fault_refresh_scope id d : refreshable ev s r id d -> body_param r "grant_type" = "refresh_token" ->
    ~ covers (cd_scope d) (parse_scope (body_param r "scope")) -> fault ev s r "invalid_scope".
(** The status for each. *)
Definition standard_status (name : string) (code : Z) : Prop :=
  code = 400%Z \/ (name = "invalid_client" /\ code = 401%Z).
(** The error is one of section 5.2 and true of the request. *)
Definition conforms (ev : env) (s : server) (r : request) (code : Z) (name : string) : Prop :=
  fault ev s r name /\ standard_status name code.

(** The requests for which the code answers otherwise, and what. *)
Inductive deviates (ev : env) (s : server) (r : request) : Z -> string -> Prop :=
| deviates_grant_type q : parse_token_request r = inl q -> ~ In (body_param r "grant_type") grant_types ->
    deviates ev s r 400 "invalid_request"
| deviates_password id : token_request_for s r id "password" ->
    ~ password_of s (body_param r "username") (body_param r "password") -> deviates ev s r 403 "access_denied"
| deviates_public id : token_request_for s r id "client_credentials" ->
    (forall c, sv_clients s !! id = Some c -> en_confidential c = false) -> deviates ev s r 401 "invalid_client"
| deviates_code id : token_request_for s r id "authorization_code" -> body_param r "code" <> "" ->
    ~ authentic s (body_param r "code") -> deviates ev s r 400 "invalid_request"
| deviates_refresh id : token_request_for s r id "refresh_token" -> body_param r "refresh_token" <> "" ->
    ~ authentic s (body_param r "refresh_token") -> deviates ev s r 400 "invalid_request".

(** ** Errors of the authorization endpoint (RFC 6749 section 4.1.2.1) *)

(** The request names a known client and its redirect URI, so that errors can be
    sent there. *)
Definition well_addressed (s : server) (r : request) (c : entity) : Prop :=
  In (rq_method r) ["GET"; "POST"] /\
  form_param r "client_id" <> "" /\ sv_clients s !! form_param r "client_id" = Some c /\
  query_unescape (form_param r "redirect_uri") = Some (en_redirect_uri c) /\
  en_redirect_uri c <> "" /\ passes_as_uri (en_redirect_uri c).
Definition response_types : list string := ["token"; "code"].
