(** Concrete responses and calls, used only to show that the theorems apply to
    something. *)
From Verif.Model Require Import Server Client.
From Verif.Spec Require Import Cases.

Definition case_token_response : token_response :=
  {| tr_token_type := "bearer"; tr_access_token := "abc.def"; tr_expires_in := 3600;
     tr_refresh_token := "ghi"; tr_scope := Some ["read"; "write"]; tr_state := "a ""quoted"" & <tagged> state";
     tr_redirect_uri := "" |}.
Definition case_introspection : introspection_response :=
  {| ir_active := true; ir_scope := Some ["read"]; ir_client_id := "c1"; ir_username := "u1"; ir_token_type := "access_token";
     ir_expires_at := 1700000000; ir_issued_at := -5; ir_not_before := 0; ir_subject := "s"; ir_audience := "";
     ir_issuer := "https://s.example"; ir_identifier := "";
     ir_extra := Some [("age", JNum "-1.5e+3"); ("tags", JArr [JStr "x"; JNull; JBool true]); ("z", JObj [("k", JStr "<v>")])] |}.
(** The same with other extra members. *)
Definition case_introspection_extra (extra : list (string * json)) : introspection_response :=
  {| ir_active := true; ir_scope := Some ["read"]; ir_client_id := "c1"; ir_username := "u1"; ir_token_type := "access_token";
     ir_expires_at := 1700000000; ir_issued_at := -5; ir_not_before := 0; ir_subject := "s"; ir_audience := "";
     ir_issuer := "https://s.example"; ir_identifier := ""; ir_extra := Some extra |}.
Definition case_error : error :=
  {| e_name := "invalid_scope"; e_state := "xyz"; e_scope := Some ["read"; "write"]; e_realm := "r"; e_description := "no \ such ""scope""";
     e_uri := "https://s.example/help"; e_status := 400; e_headers := {[ "X-Info" := "1" ]}; e_redirect_uri := ""; e_use_fragment := false |}.

(** A client set up for the server. *)
Definition case_client_config : client_config := new_client (client_default "https://s.example").
Definition case_token_query : token_request :=
  {| tq_grant_type := "password"; tq_scope := Some ["read"]; tq_client_id := "c1"; tq_client_secret := "s1";
     tq_username := "u1"; tq_password := "p1"; tq_refresh_token := ""; tq_redirect_uri := ""; tq_code := "" |}.
Definition case_call : option request := build_token_request "https://s.example/oauth2/token" case_token_query.
Definition case_lookup_query : Endpoints.lookup_request :=
  {| lq_token := access_of step2; lq_token_type_hint := "access_token"; lq_client_id := "c1"; lq_client_secret := "s1" |}.
