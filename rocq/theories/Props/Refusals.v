(** C84: which error each refusal carries. *)
From Verif.Model Require Import Server.
From Verif.Spec Require Import TokenSpec ScopeSpec WireSpec RequestSpec ServerSpec Cases RefusalSpec RefusalCases.
From Verif.Proof Require Import RefusalProofs RefusalCase.

#[local] Open Scope string_scope.
#[local] Opaque handle parse_token.

(** C84. The token endpoint answers each refusal with the status and the error
    code of the first condition that failed, and every answer that is not a
    token is one of these refusals. *)
Theorem C84_token : forall ev s r, endpoint r "token" -> refuses_with ev s r (token_refusal ev s r).
Proof. exact c84_token. Qed.
Print Assumptions C84_token.

(** The same for the introspection and revocation endpoints. *)
Theorem C84_introspect : forall ev s r, endpoint r "introspect" -> refuses_with ev s r (lookup_refusal s r).
Proof. exact c84_introspect. Qed.
Print Assumptions C84_introspect.
Theorem C84_revoke : forall ev s r, endpoint r "revoke" -> refuses_with ev s r (lookup_refusal s r).
Proof. exact c84_revoke. Qed.
Print Assumptions C84_revoke.

(** The same for the authorization endpoint, as long as the client and its
    redirect URI are not known. *)
Theorem C84_authorize : forall ev s r, endpoint r "authorize" -> refuses_with ev s r (authorization_refusal s r).
Proof. exact c84_authorize. Qed.
Print Assumptions C84_authorize.

(** Once they are, the refusal is sent to the registered redirect URI, and says
    whether the scope or the password was wrong. *)
Theorem C84_redirected : forall ev s r c name, complete_authorization s r -> rq_method r = "POST" ->
  sv_clients s !! form_param r "client_id" = Some c -> redirected_refusal s r name ->
  exists w, serves ev s r w /\ redirected_error r (en_redirect_uri c) name w.
Proof. exact c84_redirected. Qed.
Print Assumptions C84_redirected.

(** No request has two different errors. *)
Theorem C84_one : forall ev s r refusal code name code' name', refuses_with ev s r refusal ->
  refusal code name -> refusal code' name' -> code = code' /\ name = name'.
Proof. exact c84_one. Qed.
Print Assumptions C84_one.

(** A wrong password, an unknown grant type, a scope that is not allowed, no
    client, a wrong client secret, a public client, a used code, a code that is
    none, a refresh token of another client. *)
Example C84_case_token :
  token_refusal (case_env 1 rand1) case_server bad_password 403 "access_denied" /\
  token_refusal (case_env 1 rand1) case_server bad_grant 400 "invalid_request" /\
  token_refusal (case_env 1 rand1) case_server (password_request case_auth "read admin") 400 "invalid_scope" /\
  token_refusal (case_env 1 rand1) case_server (password_request "" "read") 400 "invalid_request" /\
  token_refusal (case_env 1 rand1) case_server (password_request (basic_auth_header "c1" "x") "read") 401 "invalid_client" /\
  token_refusal (case_env 1 rand1) case_server (client_request case_auth2) 401 "invalid_client" /\
  token_refusal (case_env 1002 rand3) (after step2) (redeem_request case_auth (code_of step1)) 400 "invalid_grant" /\
  token_refusal (case_env 1002 rand3) (after step2) (redeem_request case_auth "nonsense") 400 "invalid_request" /\
  token_refusal (case_env 1002 rand3) (after step2) (refresh_request case_auth2 (refresh_of step2)) 400 "invalid_grant".
Proof. exact case_refusals. Qed.
(** A token of another client, an unknown hint. *)
Example C84_case_lookup :
  lookup_refusal (after step2) (lookup_request "/oauth2/introspect" case_auth2 (access_of step2)) 401 "invalid_client" /\
  lookup_refusal (after step2) (post_to "/oauth2/revoke" case_auth [("token", access_of step2); ("token_type_hint", "magic")])
    400 "unsupported_token_type".
Proof. exact case_lookup_refusals. Qed.
(** An unknown response type; a wrong password in the implicit grant. *)
Example C84_case_authorize :
  authorization_refusal case_server (authorize_request "magic" "xyz" "u1" "p1") 400 "invalid_request" /\
  complete_authorization case_server (authorize_request "token" "xyz" "u1" "x") /\
  rq_method (authorize_request "token" "xyz" "u1" "x") = "POST" /\
  redirected_refusal case_server (authorize_request "token" "xyz" "u1" "x") "access_denied".
Proof. exact case_authorization_refusals. Qed.
