(** Concrete answers, used only to show that the theorems apply to something. *)
From Verif.Model Require Import Server Client.
From Verif.Spec Require Import Cases ClientCases.

#[local] Open Scope string_scope.

Definition json_reply (status : Z) (ctype body : string) : response :=
  {| rs_status := status; rs_ctype := ctype; rs_body := body; rs_clean := true |}.

(** Keys in odd spellings, a key given twice, an escape, a null and a member
    nobody knows. *)
Definition odd_reply : response := json_reply 200 "Application/JSON ;charset=""UTF-8""; x=1;"
  " { ""Access_Token"" : ""a"", ""access_token"": ""b\u0041\/"", ""expires_in"":3600, ""scope"":"" x  y"",
      ""token_type"":""bearer"", ""TOKEN_TYPE"":null, ""other"":[1, {}, ""\ud83d\ude00""] } ".
Definition odd_token : token_response :=
  {| tr_token_type := "bearer"; tr_access_token := "bA/"; tr_expires_in := 3600; tr_refresh_token := "";
     tr_scope := Some ["x"; "y"]; tr_state := ""; tr_redirect_uri := "" |}.
(** Values of another type, and a text that is no JSON. *)
Definition wrong_reply : response := json_reply 200 "application/json" "{""access_token"":""a"",""expires_in"":""3600""}".
Definition comma_reply : response := json_reply 200 "application/json" "{""access_token"":""a"",}".
(** The same document with another content type. *)
Definition html_reply : response := json_reply 200 "text/html; charset=utf-8" (rs_body odd_reply).

(** An introspection response whose extra members are given in two parts. *)
Definition extra_reply : response := json_reply 200 "application/json"
  "{""active"":true,""extra"":{""b"":2,""a"":1e2},""Extra"":{""a"":3.0}}".
Definition extra_document : json :=
  JObj [("active", JBool true); ("extra", JObj [("b", JNum "2"); ("a", JNum "1e2")]); ("Extra", JObj [("a", JNum "3.0")])].
Definition extra_response : introspection_response :=
  {| ir_active := true; ir_scope := None; ir_client_id := ""; ir_username := ""; ir_token_type := ""; ir_expires_at := 0;
     ir_issued_at := 0; ir_not_before := 0; ir_subject := ""; ir_audience := ""; ir_issuer := ""; ir_identifier := "";
     ir_extra := Some [("a", JNum "3"); ("b", JNum "2")] |}.

(** An error with a content type of its own. *)
Definition error_reply : response := json_reply 401 "text/plain" "{""error"":""invalid_client"",""error_description"":""unknown"",""status"":7}".
Definition error_value : error :=
  {| e_name := "invalid_client"; e_state := ""; e_scope := None; e_realm := ""; e_description := "unknown"; e_uri := "";
     e_status := 401; e_headers := ∅; e_redirect_uri := ""; e_use_fragment := false |}.
