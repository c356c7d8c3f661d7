(** Concrete requests for C89 to C96. *)
From Verif.Model Require Import Server.
From Verif.Spec Require Import RequestSpec Cases RefusalCases FormSpec.

(** A request to the token endpoint with this header and body. *)
Definition raw_request (auth body : string) : request :=
  {| rq_method := "POST"; rq_path := "/oauth2/token"; rq_query := ""; rq_auth := auth;
     rq_ctype := form_type; rq_body := Some (body, true); rq_preset := None |}.
(** The user name comes twice. *)
Definition twice_named : request :=
  raw_request case_auth "grant_type=password&username=u1&username=u2&password=p1&scope=read".
Definition twice_named_fields : list (string * string) :=
  [("grant_type", "password"); ("username", "u1"); ("username", "u2"); ("password", "p1"); ("scope", "read")].
Definition once_named : request :=
  raw_request case_auth "grant_type=password&username=u1&password=p1&scope=read".
Definition once_named_fields : list (string * string) :=
  [("grant_type", "password"); ("username", "u1"); ("password", "p1"); ("scope", "read")].
(** A second secret, which is wrong, in the body. *)
Definition two_secrets : request :=
  raw_request case_auth "grant_type=password&username=u1&password=p1&scope=read&client_id=c9&client_secret=x".
Definition two_secrets_fields : list (string * string) :=
  [("grant_type", "password"); ("username", "u1"); ("password", "p1"); ("scope", "read");
   ("client_id", "c9"); ("client_secret", "x")].

(** A server with a client whose secret has a "%". *)
Definition percent_client : entity :=
  {| en_secret := "50%"; en_redirect_uri := "https://a.example/cb"; en_confidential := true |}.
Definition percent_server : server :=
  {| sv_config := case_config; sv_clients := {[ "c1" := percent_client ]}; sv_users := {[ "u1" := case_user ]};
     sv_access := ∅; sv_refresh := ∅; sv_codes := ∅ |}.
(** The header as section 2.3.1 of RFC 6749 has it. *)
Definition percent_request : request := client_request (basic_auth_header "c1" "50%25").
(** What a client of this package is to send. *)
Definition percent_token_request : token_request :=
  {| tq_grant_type := "client_credentials"; tq_scope := Some ["read"]; tq_client_id := "c1"; tq_client_secret := "50%";
     tq_username := ""; tq_password := ""; tq_refresh_token := ""; tq_redirect_uri := ""; tq_code := "" |}.

(** Requests to the authorization endpoint of a known client with its redirect
    URI, and without any. *)
Definition odd_type_request (kind : string) : request := authorize_request kind "xyz" "u1" "p1".
Definition no_uri_request : request :=
  post_to "/oauth2/authorize" ""
    [("response_type", "code"); ("client_id", "c1"); ("scope", "read"); ("state", "xyz"); ("username", "u1"); ("password", "p1")].
