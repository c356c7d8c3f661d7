(** A concrete server and concrete requests, used only to show that the
    theorems apply to something. *)
From Verif.Model Require Import Server.
From Verif.Spec Require Import RequestSpec.

Definition case_config : server_config :=
  default_server_config "a secret of the server" (Some ["read"; "write"]).
Definition case_client : entity :=
  {| en_secret := "s1"; en_redirect_uri := "https://a.example/cb"; en_confidential := true |}.
Definition case_public_client : entity :=
  {| en_secret := ""; en_redirect_uri := "https://b.example/cb?x=1"; en_confidential := false |}.
Definition case_user : entity :=
  {| en_secret := "p1"; en_redirect_uri := ""; en_confidential := false |}.

(** Clients "c1" (confidential) and "c2" (public), user "u1", nothing issued. *)
Definition case_server : server :=
  {| sv_config := case_config;
     sv_clients := <["c1" := case_client]> {[ "c2" := case_public_client ]};
     sv_users := {[ "u1" := case_user ]};
     sv_access := ∅; sv_refresh := ∅; sv_codes := ∅ |}.

(** At the given second, with 32 random bytes. *)
Definition case_env (sec : Z) (rand : string) : env :=
  {| ev_now_check := sec * second; ev_now_access := sec * second; ev_now_refresh := sec * second;
     ev_now_code := sec * second; ev_rand := rand |}.
Definition rand1 : string := "0123456789abcdef0123456789ABCDEF".
Definition rand2 : string := "fedcba9876543210FEDCBA9876543210".

(** A form from a list of parameters. *)
Definition form_of (l : list (string * string)) : gmap string string := list_to_map l.
Definition post_to (path auth : string) (l : list (string * string)) : request :=
  form_post path auth (form_of l).
Definition case_auth : string := basic_auth_header "c1" "s1".
Definition case_auth2 : string := basic_auth_header "c2" "".

Definition case_get (path query : string) : request :=
  {| rq_method := "GET"; rq_path := path; rq_query := query; rq_auth := ""; rq_ctype := "";
     rq_body := None; rq_preset := None |}.

Definition authorize_request (kind state user password : string) : request :=
  post_to "/oauth2/authorize" ""
    [("response_type", kind); ("client_id", "c1"); ("redirect_uri", "https://a.example/cb");
     ("scope", "read"); ("state", state); ("username", user); ("password", password)].

(** ** A short history *)
Definition after (res : result) : server := res_server res.
Definition answered (res : result) : option outcome := match res with Done _ o => Some o | Panic _ => None end.
Definition access_of (res : result) : string :=
  match res with Done _ (OToken t) => tr_access_token t | _ => "" end.
Definition refresh_of (res : result) : string :=
  match res with Done _ (OToken t) => tr_refresh_token t | _ => "" end.
Definition code_of (res : result) : string :=
  match res with Done _ (OCode c) => cr_code c | _ => "" end.

Definition redeem_request (auth code : string) : request :=
  post_to "/oauth2/token" auth
    [("grant_type", "authorization_code"); ("code", code); ("redirect_uri", "https://a.example/cb")].
Definition refresh_request (auth token : string) : request :=
  post_to "/oauth2/token" auth [("grant_type", "refresh_token"); ("refresh_token", token)].
Definition password_request (auth scope : string) : request :=
  post_to "/oauth2/token" auth
    [("grant_type", "password"); ("username", "u1"); ("password", "p1"); ("scope", scope)].
Definition client_request (auth : string) : request :=
  post_to "/oauth2/token" auth [("grant_type", "client_credentials"); ("scope", "read write")].
Definition lookup_request (path auth token : string) : request :=
  post_to path auth [("token", token)].
Definition bearer_request (token : string) : request :=
  {| rq_method := "GET"; rq_path := "/api"; rq_query := ""; rq_auth := "Bearer " +:+ token; rq_ctype := "";
     rq_body := None; rq_preset := None |}.

(** "c1" obtains a code for user "u1", redeems it and refreshes. *)
Definition step1 : result := handle (case_env 1000 rand1) case_server (authorize_request "code" "xyz" "u1" "p1").
Definition step2 : result := handle (case_env 1001 rand2) (after step1) (redeem_request case_auth (code_of step1)).
Definition rand3 : string := "aaaabbbbccccddddeeeeffffgggghhhh".
Definition step3 : result := handle (case_env 1002 rand3) (after step2) (refresh_request case_auth (refresh_of step2)).
(** The signature text of a token of the server. *)
Definition sig_of (str : string) : string :=
  match parse_token (cfg_secret case_config) str with inl t => signature_string t | inr _ => "" end.
