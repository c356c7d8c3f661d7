(** The unit tests of /repo evaluated on the model, one example per test
    function. They are no proofs of properties; they show that the model
    computes what the tests expect of the code. Not repeated here: the tests of
    server_test.go, which are theorem C64_own_test, and the benchmarks. Where a
    test draws random bytes the example fixes them; where it compares the text
    of an error that is not an [Error], which the model leaves out, it checks
    that there is an error. JSON documents are compared after parsing. *)
From Verif.Model Require Import Client.
From Verif.Spec Require Import Cases.

(** utils_test.go:12-27 and 29-33. *)
Definition new_request (body : list (string * string)) : request := post_to "/foo" "" body.
Definition new_request_with_auth (user password : string) (body : list (string * string)) : request :=
  post_to "/foo" (basic_auth_header user password) body.
(** [http.NewRequest] with method, no URL and no body. *)
Definition bare_request (method : string) : request :=
  {| rq_method := method; rq_path := ""; rq_query := ""; rq_auth := ""; rq_ctype := "";
     rq_body := None; rq_preset := None |}.
Definition with_header (auth : string) : request :=
  {| rq_method := "GET"; rq_path := "/foo"; rq_query := ""; rq_auth := auth; rq_ctype := "";
     rq_body := None; rq_preset := None |}.
(** The text of the error of a failed parse. *)
Definition failure {A} (x : A + error) : option string :=
  match x with inl _ => None | inr e => Some (error_string e) end.
(** What a recorder holds: status, one header, all headers, body. *)
Definition rec_code (x : option (rw * bool)) : option Z :=
  match x with Some (w, true) => option_map fst (rw_sent w) | _ => None end.
Definition rec_headers (x : option (rw * bool)) : option headers :=
  match x with Some (w, true) => option_map snd (rw_sent w) | _ => None end.
Definition rec_header (x : option (rw * bool)) (k : string) : option string :=
  match rec_headers x with Some h => match h !! k with Some (v :: _) => Some v | _ => None end | None => None end.
Definition rec_body (x : option (rw * bool)) : option string :=
  match x with Some (w, true) => Some (rw_body w) | _ => None end.
(** A text with ' for the double quote. *)
Definition q (s : string) : string := map_bytes (fun c => if Ascii.eqb c "'" then "034"%char else c) s.
Definition json_eq (expected : string) (got : option string) : Prop :=
  match got with Some b => json_parse (q expected) <> None /\ json_parse b = json_parse (q expected) | None => False end.
(** Equality of maps, decided. *)
Notation "x =? y" := (bool_decide (x = y) = true) (at level 70, only parsing).
Ltac run := vm_compute; repeat (split; [first [reflexivity | discriminate]|]); first [reflexivity | discriminate].

(** ** authorization_test.go *)
Example TestParseAuthorizationRequestMinimal :
  parse_authorization_request (new_request
    [("client_id", "foo"); ("response_type", TokenResponseType); ("redirect_uri", "http://example.com")]) =
  inl {| aq_response_type := "token"; aq_scope := None; aq_client_id := "foo";
         aq_redirect_uri := "http://example.com"; aq_state := "" |}.
Proof. run. Qed.

Example TestParseAuthorizationRequestFull :
  parse_authorization_request (new_request
    [("client_id", "foo"); ("scope", "foo bar"); ("response_type", TokenResponseType);
     ("redirect_uri", "http://example.com"); ("state", "baz")]) =
  inl {| aq_response_type := "token"; aq_scope := Some ["foo"; "bar"]; aq_client_id := "foo";
         aq_redirect_uri := "http://example.com"; aq_state := "baz" |}.
Proof. run. Qed.

Example TestParseAuthorizationRequestErrors :
  map (fun r => match parse_authorization_request r with inl _ => false | inr _ => true end)
    [bare_request "PUT"; bare_request "POST"; new_request [];
     new_request [("response_type", TokenResponseType)];
     new_request [("response_type", TokenResponseType); ("client_id", "foo")];
     new_request [("response_type", TokenResponseType); ("client_id", "foo"); ("redirect_uri", "foo")]] =
  [true; true; true; true; true; true].
Proof. run. Qed.

(** ** bearer_test.go *)
Example TestNewBearerTokenResponse :
  let r := new_bearer_token_response "foo" 1 in
  tr_token_type r = "bearer" /\ tr_access_token r = "foo" /\ tr_expires_in r = 1%Z.
Proof. run. Qed.

Example TestParseBearerToken :
  map (fun h => match parse_bearer_token (with_header h) with BToken t => Some t | _ => None end)
    [""; "foo"; "Bearer"; "Bearer "; "Bearer foo"; "bearer bar"] =
  [None; None; None; None; Some "foo"; Some "bar"].
Proof. run. Qed.

Example TestWriteBearerError :
  let rec := write_bearer_error new_rw (GErr (InvalidRequest "foo")) in
  rec_code rec = Some 400%Z /\
  rec_header rec "Www-Authenticate" = Some (q "Bearer error='invalid_request', error_description='foo'") /\
  rec_body rec = Some "".
Proof. run. Qed.

Example TestWriteBearerErrorForcedRealm :
  let rec := write_bearer_error new_rw (GErr ProtectedResource) in
  rec_code rec = Some 401%Z /\ rec_header rec "Www-Authenticate" = Some (q "Bearer realm='OAuth2'") /\ rec_body rec = Some "".
Proof. run. Qed.

Example TestWriteBearerErrorFallback :
  let rec := write_bearer_error new_rw GOther in rec_code rec = Some 500%Z /\ rec_body rec = Some "".
Proof. run. Qed.

(** ** code_test.go *)
Example TestNewCodeResponse :
  let r := new_code_response "foo" "http://example.com" "bar" in
  cr_code r = "foo" /\ code_map r =? form_of [("code", "foo"); ("state", "bar")].
Proof. run. Qed.

Example TestWriteCodeResponse :
  let rec := write_code_response new_rw (new_code_response "foo" "http://example.com?foo=bar" "bar") in
  rec_code rec = Some 303%Z /\ rec_header rec "Location" = Some "http://example.com?code=foo&foo=bar&state=bar".
Proof. run. Qed.

(** ** error_test.go *)
Example TestErrorBuilders :
  map (fun e => (e_name e, e_status e))
    [InvalidRequest "foo"; InvalidClient "foo"; InvalidGrant "foo"; InvalidScope "foo"; InvalidToken "foo";
     UnauthorizedClient "foo"; UnsupportedGrantType "foo"; UnsupportedResponseType "foo"; UnsupportedTokenType "foo";
     ProtectedResource; InsufficientScope (Some ["foo"]); AccessDenied "foo"; ServerError "foo";
     TemporarilyUnavailable "foo"] =
  [("invalid_request", 400%Z); ("invalid_client", 401%Z); ("invalid_grant", 400%Z); ("invalid_scope", 400%Z);
   ("invalid_token", 401%Z); ("unauthorized_client", 400%Z); ("unsupported_grant_type", 400%Z);
   ("unsupported_response_type", 400%Z); ("unsupported_token_type", 400%Z); ("", 401%Z);
   ("insufficient_scope", 403%Z); ("access_denied", 403%Z); ("server_error", 500%Z);
   ("temporarily_unavailable", 503%Z)].
Proof. run. Qed.

Example TestError :
  error_string (InvalidRequest "foo") = "invalid_request: foo" /\
  error_map (InvalidRequest "foo") =? form_of [("error", "invalid_request"); ("error_description", "foo")].
Proof. run. Qed.

Definition with_fields (e : error) (uri realm : string) (sc : scope) (h : gmap string string) : error :=
  {| e_name := e_name e; e_state := e_state e; e_description := e_description e; e_uri := uri; e_realm := realm;
     e_scope := sc; e_status := e_status e; e_headers := h; e_redirect_uri := e_redirect_uri e;
     e_use_fragment := e_use_fragment e |}.

Example TestErrorMap :
  error_map (with_fields (InvalidRequest "foo") "http://example.com" "" None ∅) =?
  form_of [("error", "invalid_request"); ("error_description", "foo"); ("error_uri", "http://example.com")].
Proof. run. Qed.

Example TestBearerErrorMap :
  error_map (with_fields (InvalidRequest "") "" "bar" (Some ["baz"]) ∅) =?
  form_of [("error", "invalid_request"); ("realm", "bar"); ("scope", "baz")].
Proof. run. Qed.

Example TestBearerErrorParams :
  error_params (with_fields (InvalidRequest "") "" "bar" (Some ["baz"]) ∅) =
  q "error='invalid_request', realm='bar', scope='baz'".
Proof. run. Qed.

Example TestWriteError :
  let rec := write_error new_rw (GErr (with_fields (InvalidRequest "foo") "" "" None (form_of [("foo", "bar")]))) in
  rec_code rec = Some 400%Z /\ rec_header rec (canonical_key "foo") = Some "bar" /\
  json_eq "{'error': 'invalid_request', 'error_description': 'foo'}" (rec_body rec).
Proof. run. Qed.

Example TestWriteErrorAsRedirect :
  let rec := write_error new_rw (GErr (set_error_redirect (InvalidRequest "foo") "http://example.com" "bar" false)) in
  rec_code rec = Some 303%Z /\
  rec_header rec "Location" = Some "http://example.com?error=invalid_request&error_description=foo&state=bar".
Proof. run. Qed.

Example TestWriteErrorFallback :
  let rec := write_error new_rw GOther in
  rec_code rec = Some 500%Z /\ json_eq "{'error': 'server_error'}" (rec_body rec).
Proof. run. Qed.

Example TestParseRequestError :
  match write_error new_rw (GErr (InvalidToken "test")) with
  | Some (w, true) => match received w with
                      | Some rs => parse_request_error rs 2048 = GErr (InvalidToken "test")
                      | None => False
                      end
  | _ => False
  end.
Proof. run. Qed.

(** ** hs256_test.go *)
Definition test_key := "0123456789abcdef".
Definition test_token1 : string :=
  match generate "secret" 16 (test_key +:+ "rest") with GenOk t _ => token_string t | _ => "" end.
Example TestHS256Token :
  match generate "secret" 16 (test_key +:+ "rest") with
  | GenOk t _ => hs_key t <> "" /\ hs_signature t <> "" /\ token_string t <> "" /\
                 parse_token "secret" (token_string t) = inl t /\
                 (exists e, parse_token "secret" (token_string t +:+ "foo") = inr e)
  | _ => False
  end.
Proof. vm_compute. do 4 (split; [first [reflexivity | discriminate]|]). eexists. reflexivity. Qed.

Example TestParseHS256Token :
  map (fun s => match parse_token "secret" s with inl _ => false | inr _ => true end) [""; "%.foo"; "foo.%"] =
  [true; true; true].
Proof. run. Qed.

Example TestGenerateHS256Token : must_generate "secret" 16 (test_key +:+ "rest") <> None.
Proof. vm_compute. discriminate. Qed.

Example TestGenerateHS256TokenError :
  match generate "secret" 16 "" with GenOk _ _ => False | _ => True end /\ must_generate "secret" 16 "" = None.
Proof. vm_compute. split; [exact I|reflexivity]. Qed.

(** ** introspection_test.go, revocation_test.go *)
Definition parsers := [parse_introspection_request; parse_revocation_request].
Example TestParseLookupRequestMinimal :
  map (fun p => p (new_request_with_auth "foo" "" [("token", "foo")])) parsers =
  let x := inl {| lq_token := "foo"; lq_token_type_hint := ""; lq_client_id := "foo"; lq_client_secret := "" |} in [x; x].
Proof. run. Qed.

Example TestParseLookupRequestFull :
  map (fun p => p (new_request_with_auth "foo" "bar" [("token", "foo"); ("token_type_hint", RefreshToken)])) parsers =
  let x := inl {| lq_token := "foo"; lq_token_type_hint := "refresh_token"; lq_client_id := "foo"; lq_client_secret := "bar" |} in [x; x].
Proof. run. Qed.

Example TestParseLookupRequestErrors :
  map (fun p => map (fun r => failure (p r))
    [bare_request "GET"; bare_request "POST"; new_request []; new_request [("token", "foo")]]) parsers =
  let x := [Some "invalid_request: invalid HTTP method";
            Some "invalid_request: malformed query parameters or body form";
            Some "invalid_request: missing token";
            Some "invalid_request: missing or invalid HTTP authorization header"] in [x; x].
Proof. run. Qed.

Definition json_headers : headers :=
  list_to_map [("Cache-Control", ["no-store"]); ("Content-Type", ["application/json;charset=UTF-8"]); ("Pragma", ["no-cache"])].
Definition test_introspection (kind : string) : introspection_response :=
  let r := new_introspection_response true (Some ["foo"]) "bar" "baz" "quz" in
  {| ir_active := ir_active r; ir_scope := ir_scope r; ir_client_id := ir_client_id r; ir_username := ir_username r;
     ir_token_type := kind; ir_expires_at := ir_expires_at r; ir_issued_at := ir_issued_at r;
     ir_not_before := ir_not_before r; ir_subject := ir_subject r; ir_audience := ir_audience r;
     ir_issuer := ir_issuer r; ir_identifier := ir_identifier r; ir_extra := ir_extra r |}.
Definition empty_introspection : introspection_response := new_introspection_response false None "" "" "".

Example TestWriteIntrospectionResponse :
  (exists w, write_introspection_response new_rw (test_introspection "quz") = Some (w, false) /\
     let rec := write_introspection_response w (test_introspection "access_token") in
     rec_code rec = Some 200%Z /\ rec_headers rec =? Some json_headers /\
     json_eq "{'active': true, 'scope': 'foo', 'client_id': 'bar', 'username': 'baz', 'token_type': 'access_token'}" (rec_body rec)) /\
  (let rec := write_introspection_response new_rw empty_introspection in
   rec_code rec = Some 200%Z /\ rec_headers rec =? Some json_headers /\ json_eq "{'active': false}" (rec_body rec)).
Proof. split; [eexists; split; [vm_compute; reflexivity|]|]; run. Qed.

Definition test_lookup : Endpoints.lookup_request :=
  {| lq_token := "token"; lq_token_type_hint := "hint"; lq_client_id := "client-id"; lq_client_secret := "client-secret" |}.
Example TestLookupRequestValues :
  lookup_request_values {| lq_token := ""; lq_token_type_hint := ""; lq_client_id := ""; lq_client_secret := "" |} =? ∅ /\
  lookup_request_values test_lookup =? (list_to_map [("token", ["token"]); ("token_type_hint", ["hint"])] : values).
Proof. run. Qed.

Example TestLookupRequestBuild :
  option_map parse_introspection_request (build_introspection_request "http://auth.server/introspect" test_lookup) =
    Some (inl test_lookup) /\
  option_map parse_revocation_request (build_revocation_request "http://auth.server/revoke" test_lookup) =
    Some (inl test_lookup) /\
  option_map rq_path (build_introspection_request "http://auth.server/introspect" test_lookup) = Some "/introspect" /\
  option_map rq_path (build_revocation_request "http://auth.server/revoke" test_lookup) = Some "/revoke".
Proof. run. Qed.

(** ** oauth2_test.go *)
Example TestKnownGrantType :
  map known_grant_type ["foo"; PasswordGrantType; ClientCredentialsGrantType; AuthorizationCodeGrantType; RefreshTokenGrantType] =
  [false; true; true; true; true].
Proof. run. Qed.

Example TestKnownResponseType :
  map known_response_type ["foo"; TokenResponseType; CodeResponseType] = [false; true; true].
Proof. run. Qed.

Example TestKnownTokenType : map known_token_type ["foo"; RefreshToken; AccessToken] = [false; true; true].
Proof. run. Qed.

Example TestWrite :
  let rec := write new_rw (JStr "foo") 200 in rec_code rec = Some 200%Z /\ rec_headers rec =? Some json_headers.
Proof. run. Qed.

Example TestRedirect : exists w, write_redirect new_rw "foo" ∅ false = Some (w, false).
Proof. eexists. run. Qed.

Definition redirect_headers (location : string) : headers :=
  list_to_map [("Location", [location]); ("Cache-Control", ["no-store"]); ("Pragma", ["no-cache"]); ("Referrer-Policy", ["origin"])].
Example TestRedirectQuery :
  let rec := write_redirect new_rw "http://example.com?foo=bar" (form_of [("baz", "qux")]) false in
  rec_code rec = Some 303%Z /\ rec_headers rec =? Some (redirect_headers "http://example.com?baz=qux&foo=bar").
Proof. run. Qed.

Example TestRedirectFragment :
  let rec := write_redirect new_rw "http://example.com?foo=bar" (form_of [("baz", "qux")]) true in
  rec_code rec = Some 303%Z /\ rec_body rec = Some "" /\
  rec_headers rec =? Some (redirect_headers "http://example.com?foo=bar#baz=qux").
Proof. run. Qed.

(** ** scope_test.go *)
Example TestParseScope :
  map parse_scope ["foo"; "foo bar"; "foo bar baz"; " foo  bar  baz "] =
    [Some ["foo"]; Some ["foo"; "bar"]; Some ["foo"; "bar"; "baz"]; Some ["foo"; "bar"; "baz"]] /\
  map (fun s => scope_string (parse_scope s)) ["foo"; "foo bar"; "foo bar baz"; " foo  bar  baz "] =
    ["foo"; "foo bar"; "foo bar baz"; "foo bar baz"].
Proof. run. Qed.

Example TestScopeContains :
  scope_contains (Some ["foo"; "bar"]) "foo" = true /\ scope_contains (Some ["foo"; "bar"]) "baz" = false.
Proof. run. Qed.

Example TestScopeIncludes :
  scope_includes (Some []) (Some []) = true /\
  scope_includes (Some ["foo"; "bar"; "baz"]) (Some ["foo"; "bar"]) = true /\
  scope_includes (Some ["foo"; "bar"]) (Some ["foo"; "bar"; "baz"]) = false.
Proof. run. Qed.

Example TestScopeEmpty : scope_empty (Some []) = true /\ scope_empty (Some ["foo"]) = false.
Proof. run. Qed.

Example TestScopeJSON :
  scope_marshal (Some ["foo"; "bar"]) = q "'foo bar'" /\
  scope_unmarshal (Some []) (q "'foo bar'") = (Some ["foo"; "bar"], true).
Proof. run. Qed.

(** ** token_test.go *)
Example TestParseTokenRequestMinimal :
  parse_token_request (new_request_with_auth "foo" "" [("grant_type", PasswordGrantType)]) =
  inl {| tq_grant_type := "password"; tq_scope := None; tq_client_id := "foo"; tq_client_secret := ""; tq_username := "";
         tq_password := ""; tq_refresh_token := ""; tq_redirect_uri := ""; tq_code := "" |}.
Proof. run. Qed.

Example TestParseTokenRequestFull :
  parse_token_request (new_request_with_auth "foo" "bar"
    [("grant_type", PasswordGrantType); ("scope", "foo bar"); ("username", "baz"); ("password", "qux");
     ("refresh_token", "bla"); ("redirect_uri", "http://example.com"); ("code", "blaa")]) =
  inl {| tq_grant_type := "password"; tq_scope := Some ["foo"; "bar"]; tq_client_id := "foo"; tq_client_secret := "bar";
         tq_username := "baz"; tq_password := "qux"; tq_refresh_token := "bla"; tq_redirect_uri := "http://example.com";
         tq_code := "blaa" |}.
Proof. run. Qed.

Example TestParseTokenRequestNoAuth :
  parse_token_request (new_request
    [("grant_type", PasswordGrantType); ("client_id", "foo"); ("client_secret", "bar"); ("username", "baz"); ("password", "qux")]) =
  inl {| tq_grant_type := "password"; tq_scope := None; tq_client_id := "foo"; tq_client_secret := "bar";
         tq_username := "baz"; tq_password := "qux"; tq_refresh_token := ""; tq_redirect_uri := ""; tq_code := "" |}.
Proof. run. Qed.

Example TestParseTokenRequestErrors :
  map (fun r => failure (parse_token_request r))
    [bare_request "GET"; bare_request "POST"; new_request []; new_request [("grant_type", PasswordGrantType)];
     new_request_with_auth "foo" "bar" [("grant_type", PasswordGrantType); ("redirect_uri", "blaa%blupp")];
     new_request_with_auth "foo" "bar" [("grant_type", PasswordGrantType); ("redirect_uri", "foo")]] =
  [Some "invalid_request: invalid HTTP method"; Some "invalid_request: malformed query parameters or body form";
   Some "invalid_request: missing grant type"; Some "invalid_request: missing client identification";
   Some "invalid_request: invalid redirect URI"; Some "invalid_request: invalid redirect URI"].
Proof. run. Qed.

Example TestNewTokenResponse :
  let r := new_token_response "foo" "bar" 1 in
  tr_token_type r = "foo" /\ tr_access_token r = "bar" /\ tr_expires_in r = 1%Z /\
  token_map r =? form_of [("token_type", "foo"); ("access_token", "bar"); ("expires_in", "1")].
Proof. run. Qed.

Example TestTokenResponseMap :
  token_map {| tr_token_type := "foo"; tr_access_token := "bar"; tr_expires_in := 1; tr_refresh_token := "baz";
               tr_scope := Some ["qux"]; tr_state := "quuz"; tr_redirect_uri := "" |} =?
  form_of [("token_type", "foo"); ("access_token", "bar"); ("expires_in", "1"); ("refresh_token", "baz");
           ("scope", "qux"); ("state", "quuz")].
Proof. run. Qed.

Example TestWriteTokenResponse :
  let rec := write_token_response new_rw (new_token_response "foo" "bar" 1) in
  rec_code rec = Some 200%Z /\ json_eq "{'token_type': 'foo', 'access_token': 'bar', 'expires_in': 1}" (rec_body rec).
Proof. run. Qed.

Example TestRedirectTokenResponse :
  let rec := write_token_response new_rw (set_token_redirect (new_token_response "foo" "bar" 1) "http://example.com?foo=bar" "baz") in
  rec_code rec = Some 303%Z /\
  rec_header rec "Location" = Some "http://example.com?foo=bar#access_token=bar&expires_in=1&state=baz&token_type=foo".
Proof. run. Qed.

Definition test_token_request : token_request :=
  {| tq_grant_type := "password"; tq_scope := Some ["foo"; "bar"]; tq_client_id := "client-id";
     tq_client_secret := "client-secret"; tq_username := "username"; tq_password := "password";
     tq_refresh_token := "refresh-token"; tq_redirect_uri := "http://redirect.uri"; tq_code := "code" |}.
Example TestTokenRequestValues :
  token_request_values {| tq_grant_type := ""; tq_scope := None; tq_client_id := ""; tq_client_secret := ""; tq_username := "";
    tq_password := ""; tq_refresh_token := ""; tq_redirect_uri := ""; tq_code := "" |} =? ∅ /\
  token_request_values test_token_request =?
  (list_to_map [("grant_type", ["password"]); ("scope", ["foo bar"]); ("username", ["username"]); ("password", ["password"]);
     ("refresh_token", ["refresh-token"]); ("redirect_uri", ["http%3A%2F%2Fredirect.uri"]); ("code", ["code"])] : values).
Proof. run. Qed.

Example TestTokenRequestBuild :
  option_map parse_token_request (build_token_request "http://auth.server/token" test_token_request) =
    Some (inl test_token_request) /\
  option_map rq_path (build_token_request "http://auth.server/token" test_token_request) = Some "/token".
Proof. run. Qed.

(** ** client_test.go *)
(** utils_test.go:35-62 [withServer]: the server below /oauth2/; any other path
    but /api/ is the 404 of the mux. The clock stands at second 1000; every
    request draws the same bytes unless the example says otherwise. *)
Definition with_server : server := new_server (default_server_config "secret" (Some ["foo"; "bar"])).
Definition test_env (rand : string) : env := case_env 1000 rand.
Definition mux (ev : env) (s : server) : transport := fun r =>
  match strip_prefix "/oauth2/" (rq_path r) with
  | Some _ => connected ev s r
  | None => Some {| rs_status := 404; rs_ctype := "text/plain; charset=utf-8"; rs_body := "404 page not found" +:+ str1 "010"; rs_clean := true |}
  end.
Definition test_entity : entity := {| en_secret := "secret"; en_redirect_uri := ""; en_confidential := true |}.
Definition base := "http://0.0.0.0:1337".
Definition test_client := new_client (client_default base).
Definition test_grant (kind id user password code : string) : token_request :=
  {| tq_grant_type := kind; tq_scope := None; tq_client_id := id; tq_client_secret := "secret"; tq_username := user;
     tq_password := password; tq_refresh_token := ""; tq_redirect_uri := ""; tq_code := code |}.

Example TestClientError :
  client_authenticate
    (new_client {| cc_base_uri := base; cc_token_endpoint := "/foo"; cc_introspection_endpoint := "";
                   cc_revocation_endpoint := ""; cc_response_limit := 0 |})
    (mux (test_env rand1) with_server) (test_grant ClientCredentialsGrantType "secret" "" "" "") = inr GOther.
Proof. run. Qed.

Definition one_client : server :=
  {| sv_config := sv_config with_server; sv_clients := {[ "c1" := test_entity ]}; sv_users := {[ "u1" := test_entity ]};
     sv_access := ∅; sv_refresh := ∅; sv_codes := ∅ |}.
Definition test_code : hs_token := token_from_key "secret" "FEDCBA9876543210".
Definition with_code : server :=
  {| sv_config := sv_config with_server; sv_clients := {[ "c1" := test_entity ]}; sv_users := {[ "u1" := test_entity ]};
     sv_access := ∅; sv_refresh := ∅;
     sv_codes := {[ signature_string test_code :=
       {| cd_client_id := "c1"; cd_username := "ui"; cd_expires_at := 4600 * second; cd_scope := None;
          cd_redirect_uri := ""; cd_code := ""; cd_used := false |} ]} |}.
(** The server after a call of the client. *)
Definition then_ (ev : env) (s : server) (r : option request) : server :=
  match r with Some r => fst (serve_http ev s r new_rw) | None => s end.
Definition obtained (x : token_response + goerr) : Prop :=
  match x with
  | inl t => tr_token_type t = BearerAccessTokenType /\ tr_access_token t <> "" /\ tr_refresh_token t <> "" /\ tr_expires_in t <> 0%Z
  | inr _ => False
  end.

Example TestClientAuthenticate :
  client_authenticate test_client (mux (test_env rand1) with_code) (test_grant ClientCredentialsGrantType "foo" "" "" "") =
    inr (GErr (mk_error 401 "invalid_client" "unknown client")) /\
  obtained (client_authenticate test_client (mux (test_env rand1) with_code) (test_grant ClientCredentialsGrantType "c1" "" "" "")) /\
  client_authenticate test_client (mux (test_env rand1) with_code) (test_grant PasswordGrantType "c1" "u1" "foo" "") =
    inr (GErr (mk_error 403 "access_denied" "")) /\
  obtained (client_authenticate test_client (mux (test_env rand1) with_code) (test_grant PasswordGrantType "c1" "u1" "secret" "")) /\
  client_authenticate test_client (mux (test_env rand1) with_code) (test_grant AuthorizationCodeGrantType "c1" "" "" "foo") =
    inr (GErr (mk_error 400 "invalid_request" "a token must have two segments separated by a dot")) /\
  obtained (client_authenticate test_client (mux (test_env rand1) with_code)
    (test_grant AuthorizationCodeGrantType "c1" "" "" (token_string test_code))).
Proof.
  split; [vm_compute; reflexivity|]. split; [run|]. split; [vm_compute; reflexivity|]. split; [run|].
  split; [vm_compute; reflexivity|]. run.
Qed.

Definition granted : token_response + goerr :=
  client_authenticate test_client (mux (test_env rand1) one_client) (test_grant ClientCredentialsGrantType "c1" "" "" "").
Definition granted_server : server :=
  then_ (test_env rand1) one_client
    (build_token_request (base +:+ "/oauth2/token") (test_grant ClientCredentialsGrantType "c1" "" "" "")).
Definition test_token (x : token_response + goerr) (refresh : bool) : string :=
  match x with inl t => if refresh then tr_refresh_token t else tr_access_token t | inr _ => "" end.
Definition test_lookup_of (token : string) : Endpoints.lookup_request :=
  {| lq_token := token; lq_token_type_hint := ""; lq_client_id := "c1"; lq_client_secret := "secret" |}.
Definition unknown_token : string := token_string test_code.

Example TestClientIntrospect :
  client_introspect test_client (mux (test_env rand1) granted_server) (test_lookup_of "foo") =
    inr (GErr (mk_error 400 "invalid_request" "a token must have two segments separated by a dot")) /\
  match client_introspect test_client (mux (test_env rand1) granted_server) (test_lookup_of unknown_token) with
  | inl x => ir_active x = false | inr _ => False end /\
  match client_introspect test_client (mux (test_env rand1) granted_server) (test_lookup_of (test_token granted false)) with
  | inl x => ir_active x = true /\ ir_client_id x = "c1" /\ ir_token_type x = "access_token" /\ ir_expires_at x <> 0%Z
  | inr _ => False end /\
  match client_introspect test_client (mux (test_env rand1) granted_server) (test_lookup_of (test_token granted true)) with
  | inl x => ir_active x = true /\ ir_client_id x = "c1" /\ ir_token_type x = "refresh_token" /\ ir_expires_at x <> 0%Z
  | inr _ => False end.
Proof. split; [vm_compute; reflexivity|]. split; [vm_compute; reflexivity|]. split; run. Qed.

Example TestClientRevoke :
  client_revoke test_client (mux (test_env rand1) granted_server) (test_lookup_of "foo") =
    Some (GErr (mk_error 400 "invalid_request" "a token must have two segments separated by a dot")) /\
  client_revoke test_client (mux (test_env rand1) granted_server) (test_lookup_of unknown_token) = None /\
  client_revoke test_client (mux (test_env rand1) granted_server) (test_lookup_of (test_token granted false)) = None /\
  (let s := then_ (test_env rand1) granted_server
     (build_revocation_request (base +:+ "/oauth2/revoke") (test_lookup_of (test_token granted false))) in
   client_revoke test_client (mux (test_env rand1) s) (test_lookup_of (test_token granted true)) = None).
Proof. split; [vm_compute; reflexivity|]. split; [vm_compute; reflexivity|]. split; vm_compute; reflexivity. Qed.
