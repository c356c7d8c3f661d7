(** Concrete sequences of calls, used only to show that the theorems about what
    answers depend on apply to something. *)
From Verif.Model Require Import Server History.
From Verif.Spec Require Import RequestSpec Cases HistoryCases.

(** ** Secrets: the client "c1" with two secrets, a wrong guess, a request of
    another client. *)
Definition other_client : entity :=
  {| en_secret := "s9"; en_redirect_uri := "https://a.example/cb"; en_confidential := true |}.
Definition guess_op : op := Serve (case_env 1000 rand1) (client_request (basic_auth_header "c1" "guess")).
Definition public_op : op := Serve (case_env 1001 rand2) (password_request case_auth2 "read").
Definition secret_calls (e : entity) : list op :=
  [SetClient "c2" case_public_client; SetClient "c1" e; SetUser "u1" case_user; guess_op; public_op].

(** ** Clients: "c2" obtains tokens between the redemption and the refresh by "c1". *)
Definition between : result := handle (case_env 1002 rand3) (after step2) (password_request case_auth2 "read").
Definition rand4 : string := "iiiijjjjkkkkllllmmmmnnnnoooopppp".
Definition setup_ops : list op := [SetClient "c2" case_public_client; SetClient "c1" case_client; SetUser "u1" case_user].
Definition first_op : op := Serve (case_env 1000 rand1) (authorize_request "code" "xyz" "u1" "p1").
Definition second_op : op := Serve (case_env 1001 rand2) (redeem_request case_auth (code_of step1)).
Definition between_op : op := Serve (case_env 1002 rand3) (password_request case_auth2 "read").
Definition last_op : op := Serve (case_env 1003 rand4) (refresh_request case_auth (refresh_of step2)).

(** ** The code flow: "c2" obtains tokens between the authorization and the
    exchange of the code. *)
Definition meantime_op : op := Serve (case_env 1001 rand3) (password_request case_auth2 "read").
Definition meantime : result := handle (case_env 1001 rand3) (after step1) (password_request case_auth2 "read").
Definition code_query : token_request :=
  {| tq_grant_type := "authorization_code"; tq_scope := None; tq_client_id := "c1"; tq_client_secret := "s1";
     tq_username := ""; tq_password := ""; tq_refresh_token := ""; tq_redirect_uri := "https://a.example/cb";
     tq_code := code_of step1 |}.
