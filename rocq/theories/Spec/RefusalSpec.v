(** Which error each refusal of the authorization server carries. *)
From Verif.Model Require Import Server.
From Verif.Spec Require Import TokenSpec ScopeSpec WireSpec RequestSpec ServerSpec.

(** The answer to a request on a fresh connection. *)
Definition serves (ev : env) (s : server) (r : request) (w : rw) : Prop :=
  exists s', serve_http ev s r new_rw = (s', Some w).

(** The string is a token this server could have made (see C02). *)
Definition authentic (s : server) (str : string) : Prop := exists sg, names (server_secret s) str sg.

(** The server allows the scope a token request asks for. *)
Definition allowed_scope (s : server) (asked : string) : Prop :=
  covers (cfg_allowed_scope (sv_config s)) (parse_scope asked).

(** A code the client may redeem now with the redirect URI it sends. *)
Definition redeemable (ev : env) (s : server) (r : request) (id : string) : Prop :=
  exists d, auth_code s (body_param r "code") d /\ cd_used d = false /\ (ev_now_check ev <= cd_expires_at d)%Z /\
    cd_client_id d = id /\ query_unescape (body_param r "redirect_uri") = Some (cd_redirect_uri d).
(** A refresh token the client may use now; its data. *)
Definition refreshable (ev : env) (s : server) (r : request) (id : string) (d : credential) : Prop :=
  refresh_token s (body_param r "refresh_token") d /\ (ev_now_check ev <= cd_expires_at d)%Z /\ cd_client_id d = id.

(** A well-formed request of a known client for one of the four grants. *)
Definition token_request_for (s : server) (r : request) (id grant : string) : Prop :=
  complete_token_request r /\ from_client s r id /\ body_param r "grant_type" = grant.

(** The refusals of the token endpoint: status and error code. *)
Inductive token_refusal (ev : env) (s : server) (r : request) : Z -> string -> Prop :=
| refuse_malformed : (~ exists q, parse_token_request r = inl q) -> token_refusal ev s r 400 "invalid_request"
| refuse_grant_type : ~ In (body_param r "grant_type") grant_types -> token_refusal ev s r 400 "invalid_request"
| refuse_client : complete_token_request r -> unauthenticated s r -> token_refusal ev s r 401 "invalid_client"
| refuse_password id : token_request_for s r id "password" ->
    ~ password_of s (body_param r "username") (body_param r "password") -> token_refusal ev s r 403 "access_denied"
| refuse_password_scope id : token_request_for s r id "password" ->
    password_of s (body_param r "username") (body_param r "password") ->
    ~ allowed_scope s (body_param r "scope") -> token_refusal ev s r 400 "invalid_scope"
| refuse_public id : token_request_for s r id "client_credentials" ->
    (forall c, sv_clients s !! id = Some c -> en_confidential c = false) -> token_refusal ev s r 401 "invalid_client"
| refuse_client_scope id c : token_request_for s r id "client_credentials" ->
    sv_clients s !! id = Some c -> en_confidential c = true ->
    ~ allowed_scope s (body_param r "scope") -> token_refusal ev s r 400 "invalid_scope"
| refuse_code_text id : token_request_for s r id "authorization_code" ->
    ~ authentic s (body_param r "code") -> token_refusal ev s r 400 "invalid_request"
| refuse_code id : token_request_for s r id "authorization_code" -> authentic s (body_param r "code") ->
    ~ redeemable ev s r id -> token_refusal ev s r 400 "invalid_grant"
| refuse_refresh_text id : token_request_for s r id "refresh_token" ->
    ~ authentic s (body_param r "refresh_token") -> token_refusal ev s r 400 "invalid_request"
| refuse_refresh id : token_request_for s r id "refresh_token" -> authentic s (body_param r "refresh_token") ->
    (forall d, ~ refreshable ev s r id d) -> token_refusal ev s r 400 "invalid_grant"
| refuse_refresh_scope id d : token_request_for s r id "refresh_token" -> refreshable ev s r id d ->
    ~ covers (cd_scope d) (parse_scope (body_param r "scope")) -> token_refusal ev s r 400 "invalid_scope".

(** The token belongs to another client. *)
Definition foreign_token (s : server) (str id : string) : Prop :=
  exists d, (access_token s str d \/ refresh_token s str d) /\ cd_client_id d <> id.

(** The refusals of the introspection and revocation endpoints. *)
Inductive lookup_refusal (s : server) (r : request) : Z -> string -> Prop :=
| refuse_lookup_malformed : (~ exists q, parse_introspection_request r = inl q) -> lookup_refusal s r 400 "invalid_request"
| refuse_lookup_hint q : parse_introspection_request r = inl q ->
    ~ In (body_param r "token_type_hint") [""; "access_token"; "refresh_token"] ->
    lookup_refusal s r 400 "unsupported_token_type"
| refuse_lookup_client : complete_lookup_request r -> unauthenticated s r -> lookup_refusal s r 401 "invalid_client"
| refuse_lookup_text id : complete_lookup_request r -> from_client s r id ->
    ~ authentic s (body_param r "token") -> lookup_refusal s r 400 "invalid_request"
| refuse_lookup_owner id : complete_lookup_request r -> from_client s r id ->
    foreign_token s (body_param r "token") id -> lookup_refusal s r 401 "invalid_client".

(** The refusals of the authorization endpoint that go to the user agent
    itself: the client or its redirect URI is not to be trusted. *)
Inductive authorization_refusal (s : server) (r : request) : Z -> string -> Prop :=
| refuse_authorization_malformed : (~ exists q, parse_authorization_request r = inl q) ->
    authorization_refusal s r 400 "invalid_request"
| refuse_response_type : ~ In (form_param r "response_type") ["token"; "code"] ->
    authorization_refusal s r 400 "invalid_request"
| refuse_unknown_client q : parse_authorization_request r = inl q -> In (form_param r "response_type") ["token"; "code"] ->
    sv_clients s !! form_param r "client_id" = None -> authorization_refusal s r 401 "invalid_client"
| refuse_redirect_uri c : sv_clients s !! form_param r "client_id" = Some c ->
    query_unescape (form_param r "redirect_uri") <> Some (en_redirect_uri c) ->
    authorization_refusal s r 400 "invalid_request".

(** Those that are sent to the client through its redirect URI. *)
Inductive redirected_refusal (s : server) (r : request) : string -> Prop :=
| refuse_scope : ~ allowed_scope s (form_param r "scope") -> redirected_refusal s r "invalid_scope"
| refuse_owner : allowed_scope s (form_param r "scope") ->
    ~ password_of s (body_param r "username") (body_param r "password") -> redirected_refusal s r "access_denied".
(** The response the helper for redirects writes for this error: the parameters
    "error" and, if the request has one, "state", in the fragment for the
    implicit grant and in the query otherwise. *)
Definition redirected_error (r : request) (uri name : string) (w : rw) : Prop :=
  exists params, params !! "error" = Some name /\
    (forall x, params !! "state" = Some x <-> (x = form_param r "state" /\ x <> "")) /\
    (forall k, k <> "error" -> k <> "state" -> params !! k = None) /\
    write_redirect new_rw uri params (if decide (form_param r "response_type" = "token") then true else false) =
      Some (w, true).

(** The error documents a server answers with are exactly these. *)
Definition refuses_with (ev : env) (s : server) (r : request) (refusal : Z -> string -> Prop) : Prop :=
  (forall code name, refusal code name -> exists w, serves ev s r w /\ error_document w code name) /\
  (forall w, serves ev s r w -> status w = 200%Z \/ header_values w "Location" <> [] \/
     exists code name, refusal code name /\ error_document w code name).
