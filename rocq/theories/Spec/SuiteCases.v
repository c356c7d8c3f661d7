(** The server of the repository's own test (server_test.go) and its specification. *)
From Verif.Model Require Import Suite.
From Verif.Spec Require Import ServerSpec SuiteSpec.

(** server_test.go:37-78: the tokens made for the test. *)
Record made_tokens := {
  tt_unknown : hs_token; tt_valid : hs_token; tt_expired : hs_token; tt_insufficient : hs_token;
  tt_unknown_refresh : hs_token; tt_valid_refresh : hs_token; tt_expired_refresh : hs_token;
  tt_unknown_code : hs_token; tt_expired_code : hs_token
}.

(** server_test.go:12-15. *)
Definition test_allowed : scope := Some ["foo"; "bar"].
(** server_test.go:13. *)
Definition test_required : scope := Some ["foo"].
(** server_test.go:15. *)
Definition test_config : server_config := default_server_config "secret" test_allowed.

(** server_test.go:42-57: a stored token of the test. *)
Definition test_credential (scp : scope) (expires : Z) : credential :=
  {| cd_client_id := "client1"; cd_username := ""; cd_expires_at := expires; cd_scope := scp;
     cd_redirect_uri := ""; cd_code := ""; cd_used := false |}.

(** server_test.go:17-82; time.Now is [now] in all of it. *)
Definition test_server (t : made_tokens) (now : Z) : server :=
  let later := (now + 3600 * second)%Z in
  let before := (now - 3600 * second)%Z in
  {| sv_config := test_config;
     sv_clients :=
       {[ "client1" := {| en_secret := "foo"; en_redirect_uri := "http://example.com/callback1";
                          en_confidential := true |};
          "client2" := {| en_secret := "foo"; en_redirect_uri := "http://example.com/callback2";
                          en_confidential := false |} ]};
     sv_users := {[ "user1" := {| en_secret := "foo"; en_redirect_uri := "";
                                  en_confidential := false |} ]};
     sv_access :=
       {[ signature_string (tt_valid t) := test_credential test_allowed later;
          signature_string (tt_expired t) := test_credential test_allowed before;
          signature_string (tt_insufficient t) := test_credential (Some []) later ]};
     sv_refresh :=
       {[ signature_string (tt_valid_refresh t) := test_credential test_allowed later;
          signature_string (tt_expired_refresh t) := test_credential test_allowed before ]};
     sv_codes :=
       {[ signature_string (tt_expired_code t) := test_credential test_allowed before ]} |}.

(** server_test.go:86-89: the paths below /api/. *)
Definition test_resource (path : string) : bool :=
  match strip_prefix "/api/" path with Some _ => true | None => false end.

(** server_test.go:93-142. [pw] and so on: which grants are tested; [intro] and
    [revoke]: the two optional endpoints. The repository tests all. *)
Definition test_spec (t : made_tokens) (pw cc im co re : bool) (intro revoke : string) : spec :=
  {| sp_token := "/oauth2/token"; sp_authorize := "/oauth2/authorize";
     sp_revocation := revoke; sp_introspection := intro; sp_resource := "/api/protected";
     sp_password_grant := pw; sp_client_credentials_grant := cc; sp_implicit_grant := im;
     sp_code_grant := co; sp_refresh_grant := re;
     sp_client := "client1"; sp_secret := "foo"; sp_public := "client2";
     sp_invalid_scope := "baz"; sp_valid_scope := "foo bar"; sp_exceeding_scope := "foo bar baz";
     sp_expires_in := 3600;
     sp_invalid_token := "invalid"; sp_unknown_token := token_string (tt_unknown t);
     sp_valid_token := token_string (tt_valid t);
     sp_expired_token := token_string (tt_expired t);
     sp_insufficient_token := token_string (tt_insufficient t);
     sp_owner := "user1"; sp_owner_password := "foo";
     sp_invalid_redirect := "http://invalid.com";
     sp_primary_redirect := "http://example.com/callback1";
     sp_secondary_redirect := "http://example.com/callback2";
     sp_invalid_refresh := "invalid";
     sp_unknown_refresh := token_string (tt_unknown_refresh t);
     sp_valid_refresh := token_string (tt_valid_refresh t);
     sp_expired_refresh := token_string (tt_expired_refresh t);
     sp_invalid_code := "invalid"; sp_unknown_code := token_string (tt_unknown_code t);
     sp_expired_code := token_string (tt_expired_code t);
     sp_invalid_params := Some {[ "username" := "user1"; "password" := "invalid" ]};
     sp_invalid_headers := None;
     sp_valid_params := Some {[ "username" := "user1"; "password" := "foo" ]};
     sp_valid_headers := None;
     sp_replay := true |}.

(** The tokens in the order they are made. *)
Definition test_token_list (t : made_tokens) : list hs_token :=
  [tt_unknown t; tt_valid t; tt_expired t; tt_insufficient t; tt_unknown_refresh t;
   tt_valid_refresh t; tt_expired_refresh t; tt_unknown_code t; tt_expired_code t].
(** All made with the configuration, with different signatures. *)
Definition well_made (t : made_tokens) : Prop :=
  Forall (fun k => exists src rest, cfg_must_generate test_config src = Some (k, rest)) (test_token_list t) /\
  NoDup (map signature_string (test_token_list t)).

(** A concrete run: the password grant, without the optional endpoints. *)
Definition case_key (i j : nat) : string :=
  String (Ascii.ascii_of_nat i) (String (Ascii.ascii_of_nat j) "fourteen bytes").
Definition case_made (i : nat) : hs_token := token_from_key "secret" (case_key 0 i).
Definition case_tokens : made_tokens :=
  {| tt_unknown := case_made 0; tt_valid := case_made 1; tt_expired := case_made 2;
     tt_insufficient := case_made 3; tt_unknown_refresh := case_made 4;
     tt_valid_refresh := case_made 5; tt_expired_refresh := case_made 6;
     tt_unknown_code := case_made 7; tt_expired_code := case_made 8 |}.
(** The clock moves on by a second with every request. *)
Definition case_env (i : nat) : env :=
  let now := (Z.of_nat i * second)%Z in
  {| ev_now_check := now; ev_now_access := now; ev_now_refresh := now; ev_now_code := now;
     ev_rand := case_key 1 i +:+ case_key 2 i |}.
Definition case_envs : list env := map case_env (List.seq 0 32).
Definition case_spec : spec := test_spec case_tokens true false false false false "" "".
Definition case_server : server := test_server case_tokens 0.

(** A handler that answers everything with 200. *)
Definition careless : handler unit := fun _ s _ => (s, Some new_rw).
