(** oauth2test: the integration tests that can be run against any server

    A test is a program that sends requests to a handler, looks at the recorded
    responses and checks them. The testing.T it gets is represented by the
    report of the run: which checks (calls of assert functions) were made and
    with what result, and whether the test panicked. Not modelled: the messages
    printed for failed checks (utils.go:100-102 [debug]) and the names of the
    subtests. *)
From Verif.Model Require Export Server.

(** ** request.go *)

(** request.go:11-19 [Request]; the callback is the second argument of [Send]. *)
Record test_request := {
  sr_method : string;
  sr_path : string;
  sr_header : gmap string string;
  sr_form : gmap string string;
  sr_username : string;
  sr_password : string
}.

(** net/http request.go validMethod; the empty method means GET. *)
Definition valid_method (m : string) : bool := all_bytes valid_header_byte m.

(** request.go:30-32: the headers after [r.Header.Set] of every entry, in the
    order the map is iterated. *)
Definition header_of (l : list (string * string)) (k : string) : string :=
  fold_left (fun acc kv => if seqb (canonical_key (fst kv)) k then snd kv else acc) l "".

(** request.go:23-47: the request that [Do] passes to the handler; [None] is the
    panic at 26. Of the headers only those the package looks at are kept. *)
Definition do_request (q : test_request) : option request :=
  if negb (valid_method (sr_method q)) then None
  else match url_parse (sr_path q) with
  | None => None
  | Some u =>
      Some {| rq_method := if seqb (sr_method q) "" then "GET" else sr_method q;
              rq_path := u_path u;
              rq_query := u_rawquery u;
              rq_auth := if seqb (sr_username q) ""
                         then header_of (map_to_list (sr_header q)) "Authorization"
                         else "Basic " +:+ std_encode (sr_username q +:+ ":" +:+ sr_password q);
              rq_ctype := header_of (map_to_list (sr_header q)) "Content-Type";
              rq_body := None;
              rq_preset := Some ((fun v => [v]) <$> sr_form q) |}
  end.

(** ** Programs *)

(** What a test does: call [Do] (request.go:22-57) with a callback, make a check,
    panic, or end. *)
Inductive suite :=
| Finish
| Check (ok : bool) (rest : suite)
| Crash
| Send (q : test_request) (callback : rw -> suite).

(** An http.Handler with state: what it does in one call, given the results of
    time.Now and the random source during it; [None] is a panic. *)
Definition handler (S : Type) := env -> S -> request -> S * option rw.

(** The result of a run: the checks in order, and how it ended. *)
Inductive ending := Completed | Panicked | Out_of_input.
Record report := { rp_checks : list bool; rp_ending : ending }.

(** Prepend a check. *)
Definition add_check (b : bool) (r : report) : report :=
  {| rp_checks := b :: rp_checks r; rp_ending := rp_ending r |}.

(** Run a test against a handler; the n-th call of the handler gets the n-th
    environment. The run stops early when there is none left. *)
Fixpoint run_suite {S} (h : handler S) (evs : list env) (st : S) (p : suite) : report :=
  match p with
  | Finish => {| rp_checks := []; rp_ending := Completed |}
  | Check b rest => add_check b (run_suite h evs st rest)
  | Crash => {| rp_checks := []; rp_ending := Panicked |}
  | Send q k =>
      match do_request q with
      | None => {| rp_checks := []; rp_ending := Panicked |}
      | Some r =>
          match evs with
          | [] => {| rp_checks := []; rp_ending := Out_of_input |}
          | ev :: evs' =>
              match h ev st r with
              | (st', Some w) => run_suite h evs' st' (k w)
              | (_, None) => {| rp_checks := []; rp_ending := Panicked |}
              end
          end
      end
  end.

(** server_test.go:83-89: the server and a protected resource behind one handler.
    Simplification: which paths belong to the resource is a parameter, where the
    test uses an http.ServeMux with two prefixes. *)
Definition mounted (resource : string -> bool) (required : scope) : handler server :=
  fun ev s r =>
    if resource (rq_path r) then
      match authorize (ev_now_check ev) s r required new_rw with
      | None => (s, None)
      | Some (false, w) => (s, Some w)
      | Some (true, w) => (s, option_map fst (write_bytes w "OK"))
      end
    else serve_http ev s r new_rw.

(** ** utils.go *)

(** utils.go:17-31 [extend]; the second map wins. A nil map is empty. *)
Definition extend (src : option (gmap string string)) (ext : gmap string string)
  : gmap string string := ext ∪ default ∅ src.

(** httptest.ResponseRecorder.Code. *)
Definition rec_code (w : rw) : Z := match rw_sent w with Some (c, _) => c | None => 200%Z end.
(** [r.Header().Get(k)]. *)
Definition rec_header (w : rw) (k : string) : string :=
  match rw_header w !! canonical_key k with Some (v :: _) => v | _ => "" end.

(** The value of the last member of that name (decode.go object for a map). *)
Definition member_value (field : string) (o : list (string * json)) : option json :=
  fold_left (fun acc kv => if seqb (fst kv) field then Some (snd kv) else acc) o None.

(** utils.go:33-44 [jsonField]: the first JSON value of the body must be an
    object (or null, which has no fields), and all its numbers must be in range. *)
Definition json_field (w : rw) (field : string) : option json :=
  match parse_value (S (slen (rw_body w))) max_depth (rw_body w) with
  | Some (JObj o, _) => match any_members o with
                        | Some l => member_value field l
                        | None => None
                        end
  | _ => None
  end.

(** utils.go:46-49 [jsonFieldBool]. *)
Definition json_field_bool (w : rw) (field : string) : bool :=
  match json_field w field with Some (JBool b) => b | _ => false end.

(** utils.go:51-54 [jsonFieldString]. *)
Definition json_field_string (w : rw) (field : string) : string :=
  match json_field w field with Some (JStr s) => s | _ => "" end.

(** utils.go:56-59 [jsonFieldFloat], compared with an integer by assert.Equal
    (general.go:135). The field holds the float64 that [any_of_json] gives as
    its literal. *)
Definition json_field_is (w : rw) (field : string) (z : Z) : bool :=
  match match json_field w field with Some (JNum lit) => parse_float lit | _ => float_of_int 0 end,
        float_of_int z with
  | Some f, Some g => float_eqb f g
  | _, _ => false
  end.

(** utils.go:61-73 [fragment]; [None] is a panic. *)
Definition loc_fragment (w : rw) (key : string) : option string :=
  match url_parse (rec_header w "Location") with
  | None => None
  | Some u => match parse_query (u_fragment u) with
              | (v, true) => Some (vget v key)
              | (_, false) => None
              end
  end.

(** utils.go:75-82 [query]; [None] is a panic. *)
Definition loc_query (w : rw) (key : string) : option string :=
  match url_parse (rec_header w "Location") with
  | None => None
  | Some u => Some (vget (url_query u) key)
  end.

(** strings.Split(s, ", ") (utils.go:87). *)
Fixpoint split_list (s : string) : list string :=
  match s with
  | "" => [""]
  | String a r =>
      let keep := match split_list r with
                  | h :: t => String a h :: t
                  | [] => [str1 a]
                  end in
      if Ascii.eqb a ","%char then
        match r with
        | String b r' => if Ascii.eqb b " "%char then "" :: split_list r' else keep
        | "" => keep
        end
      else keep
  end.

(** Is the character in the cutset of utils.go:94? *)
Definition in_cutset (a : ascii) : bool := Ascii.eqb a dquote || Ascii.eqb a ","%char.
(** strings.TrimLeft for that cutset. *)
Fixpoint trim_cutset_left (s : string) : string :=
  match s with
  | "" => ""
  | String a r => if in_cutset a then trim_cutset_left r else s
  end.
(** strings.Trim for that cutset. *)
Definition trim_cutset (s : string) : string :=
  srev (trim_cutset_left (srev (trim_cutset_left s))).

(** utils.go:89-95, the loop of [auth]; [None] is the panic of [values[1]]. *)
Fixpoint auth_loop (key : string) (parts : list string) : option string :=
  match parts with
  | [] => Some ""
  | part :: rest =>
      match cut "=" part with
      | Some (k, v) => if negb (seqb k key) then auth_loop key rest else Some (trim_cutset v)
      | None => if negb (seqb part key) then auth_loop key rest else None
      end
  end.

(** utils.go:84-98 [auth]; [None] is a panic ([parts[1]] without a blank in the
    header). *)
Definition auth_param (w : rw) (key : string) : option string :=
  match cut " " (rec_header w "WWW-Authenticate") with
  | Some (_, params) => auth_loop key (split_list params)
  | None => None
  end.

(** ** Checks *)

(** [assert.Equal(t, status, r.Code)]. *)
Definition check_code (w : rw) (status : Z) (rest : suite) : suite :=
  Check (rec_code w =? status)%Z rest.
(** [assert.Equal(t, value, jsonFieldString(r, field))]. *)
Definition check_json (w : rw) (field value : string) (rest : suite) : suite :=
  Check (seqb (json_field_string w field) value) rest.
(** A check of the value of a helper that may panic. *)
Definition check_some (v : option string) (ok : string -> bool) (rest : suite) : suite :=
  match v with
  | Some x => Check (ok x) rest
  | None => Crash
  end.
(** [assert.Equal] with a string. *)
Definition is_value (value x : string) : bool := seqb x value.
(** [assert.NotEmpty] of a string. *)
Definition not_empty (x : string) : bool := negb (seqb x "").
(** [assert.Empty] of a string. *)
Definition is_empty (x : string) : bool := seqb x "".

(** The callback that checks the status and the error of a JSON document (for
    example endpoints.go:17-20). *)
Definition expect_error (status : Z) (name : string) (rest : suite) (w : rw) : suite :=
  check_code w status (check_json w "error" name rest).
(** The same and a realm (for example endpoints.go:73-77). *)
Definition expect_refused (rest : suite) (w : rw) : suite :=
  check_code w 401 (check_json w "error" "invalid_client"
    (check_some (auth_param w "realm") not_empty rest)).
(** The callback that checks only the status (for example endpoints.go:243-245). *)
Definition expect_code (status : Z) (rest : suite) (w : rw) : suite := check_code w status rest.
(** The callback for errors of the protected resource (for example
    endpoints.go:430-434). *)
Definition expect_bearer_error (status : Z) (name : string) (rest : suite) (w : rw) : suite :=
  check_code w status (check_some (auth_param w "error") (is_value name)
    (Check (is_empty (rw_body w)) rest)).

(** ** spec.go *)

(** spec.go:11-102 [Spec] without the handler. *)
Record spec := {
  sp_token : string;
  sp_authorize : string;
  sp_revocation : string;
  sp_introspection : string;
  sp_resource : string;
  sp_password_grant : bool;
  sp_client_credentials_grant : bool;
  sp_implicit_grant : bool;
  sp_code_grant : bool;
  sp_refresh_grant : bool;
  sp_client : string;
  sp_secret : string;
  sp_public : string;
  sp_invalid_scope : string;
  sp_valid_scope : string;
  sp_exceeding_scope : string;
  sp_expires_in : Z;
  sp_invalid_token : string;
  sp_unknown_token : string;
  sp_valid_token : string;
  sp_expired_token : string;
  sp_insufficient_token : string;
  sp_owner : string;
  sp_owner_password : string;
  sp_invalid_redirect : string;
  sp_primary_redirect : string;
  sp_secondary_redirect : string;
  sp_invalid_refresh : string;
  sp_unknown_refresh : string;
  sp_valid_refresh : string;
  sp_expired_refresh : string;
  sp_invalid_code : string;
  sp_unknown_code : string;
  sp_expired_code : string;
  sp_invalid_params : option (gmap string string);
  sp_invalid_headers : option (gmap string string);
  sp_valid_params : option (gmap string string);
  sp_valid_headers : option (gmap string string);
  sp_replay : bool
}.

(** spec.go:105-118 [Default]. *)
Definition default_spec : spec :=
  {| sp_token := "/oauth2/token"; sp_authorize := "/oauth2/authorize";
     sp_revocation := "/oauth2/revoke"; sp_introspection := "/oauth2/introspect";
     sp_resource := "/api/protected";
     sp_password_grant := false; sp_client_credentials_grant := false;
     sp_implicit_grant := false; sp_code_grant := false; sp_refresh_grant := false;
     sp_client := ""; sp_secret := ""; sp_public := "";
     sp_invalid_scope := ""; sp_valid_scope := ""; sp_exceeding_scope := "";
     sp_expires_in := 3600;
     sp_invalid_token := "invalid"; sp_unknown_token := ""; sp_valid_token := "";
     sp_expired_token := ""; sp_insufficient_token := "";
     sp_owner := ""; sp_owner_password := "";
     sp_invalid_redirect := "http://invalid.com"; sp_primary_redirect := "";
     sp_secondary_redirect := "";
     sp_invalid_refresh := "invalid"; sp_unknown_refresh := ""; sp_valid_refresh := "";
     sp_expired_refresh := "";
     sp_invalid_code := ""; sp_unknown_code := ""; sp_expired_code := "";
     sp_invalid_params := None; sp_invalid_headers := None;
     sp_valid_params := None; sp_valid_headers := None;
     sp_replay := false |}.

(** ** Requests of the tests *)

(** A POST with a form and no credentials (for example endpoints.go:14-16). *)
Definition post (path : string) (form : gmap string string) : test_request :=
  {| sr_method := "POST"; sr_path := path; sr_header := ∅; sr_form := form;
     sr_username := ""; sr_password := "" |}.
(** A POST with a form and Basic credentials (for example endpoints.go:36-43). *)
Definition post_as (user password path : string) (form : gmap string string) : test_request :=
  {| sr_method := "POST"; sr_path := path; sr_header := ∅; sr_form := form;
     sr_username := user; sr_password := password |}.
(** The same as the confidential client of the spec. *)
Definition post_conf (s : spec) (path : string) (form : gmap string string) : test_request :=
  post_as (sp_client s) (sp_secret s) path form.
(** A GET of the protected resource with an Authorization header (for example
    general.go:15-20). *)
Definition get_resource (s : spec) (header : string) : test_request :=
  {| sr_method := "GET"; sr_path := sp_resource s;
     sr_header := {[ "Authorization" := header ]}; sr_form := ∅;
     sr_username := ""; sr_password := "" |}.
(** The form of introspection and revocation requests. *)
Definition token_form (token hint : string) : gmap string string :=
  <["token" := token]> {[ "token_type_hint" := hint ]}.
(** The same without a hint. *)
Definition plain_token_form (token : string) : gmap string string := {[ "token" := token ]}.

(** ** general.go *)

(** general.go:15-24, 62-74: is the token accepted, or refused? *)
Definition resource_accepts (s : spec) (token : string) (rest : suite) : suite :=
  Send (get_resource s ("Bearer " +:+ token)) (expect_code 200 rest).
(** general.go:62-74. *)
Definition resource_refuses (s : spec) (token : string) (rest : suite) : suite :=
  Send (get_resource s ("Bearer " +:+ token)) (fun w =>
    check_code w 401 (check_some (auth_param w "error") (is_value "invalid_token") rest)).
(** general.go:27-43, 101-117: introspection of a live token. *)
Definition introspects_active (s : spec) (token kind : string) (rest : suite) : suite :=
  if seqb (sp_introspection s) "" then rest
  else Send (post_conf s (sp_introspection s) (token_form token kind)) (fun w =>
    check_code w 200 (Check (json_field_bool w "active") (check_json w "token_type" kind rest))).
(** general.go:77-92, 164-179, 220-235: introspection of a dead token. *)
Definition introspects_inactive (s : spec) (token kind : string) (rest : suite) : suite :=
  if seqb (sp_introspection s) "" then rest
  else Send (post_conf s (sp_introspection s) (token_form token kind)) (fun w =>
    check_code w 200 (Check (negb (json_field_bool w "active")) rest)).
(** general.go:50-59, 187-198: revocation. *)
Definition revokes (s : spec) (token kind : string) (rest : suite) : suite :=
  Send (post_conf s (sp_revocation s) (token_form token kind)) (expect_code 200 rest).

(** general.go:13-93 [AccessTokenTest]. *)
Definition access_token_test (s : spec) (token : string) (rest : suite) : suite :=
  resource_accepts s token
  (introspects_active s token "access_token"
  (if seqb (sp_revocation s) "" then rest
   else revokes s token "access_token"
        (resource_refuses s token
        (introspects_inactive s token "access_token" rest)))).

(** A refresh token grant (for example general.go:122-130). *)
Definition refresh_form (token : string) : gmap string string :=
  <["grant_type" := "refresh_token"]> {[ "refresh_token" := token ]}.
(** general.go:148-161, 201-214: a refresh token that cannot be used any more. *)
Definition refresh_spent (s : spec) (token : string) (rest : suite) : suite :=
  Send (post_conf s (sp_token s) (refresh_form token)) (expect_error 400 "invalid_grant" rest).

(** The callback of a successful grant (for example general.go:131-142); it stores
    the two tokens. *)
Definition expect_tokens (s : spec) (k : string -> string -> suite) (w : rw) : suite :=
  check_code w 200 (check_json w "token_type" "bearer" (check_json w "scope" (sp_valid_scope s)
    (Check (json_field_is w "expires_in" (sp_expires_in s))
      (let access := json_field_string w "access_token" in
       Check (not_empty access)
         (let refresh := json_field_string w "refresh_token" in
          Check (not_empty refresh) (k access refresh)))))).

(** general.go:98-235 [RefreshTokenTest]. *)
Definition refresh_token_test (s : spec) (token : string) (rest : suite) : suite :=
  introspects_active s token "refresh_token"
  (Send (post_conf s (sp_token s) (refresh_form token)) (expect_tokens s (fun access new =>
    access_token_test s access
    (refresh_spent s token
    (introspects_inactive s token "refresh_token"
    (if seqb (sp_revocation s) "" then rest
     else revokes s new "refresh_token"
          (refresh_spent s new
          (introspects_inactive s new "refresh_token" rest)))))))).

(** ** endpoints.go *)

(** endpoints.go:12-51 [TokenEndpointTest]. *)
Definition token_endpoint_test (s : spec) (rest : suite) : suite :=
  Send (post (sp_token s) ∅) (expect_error 400 "invalid_request"
  (Send (post_as "unknown" "" (sp_token s) {[ "grant_type" := "password" ]})
     (expect_error 401 "invalid_client"
  (Send (post_conf s (sp_token s) {[ "grant_type" := "invalid" ]})
     (expect_error 400 "invalid_request" rest))))).

(** The form of an authorization request without scope and state. *)
Definition authorize_form (response_type client redirect : string) : gmap string string :=
  <["response_type" := response_type]> (<["client_id" := client]> {[ "redirect_uri" := redirect ]}).

(** endpoints.go:54-126 [AuthorizationEndpointTest]. *)
Definition authorization_endpoint_test (s : spec) (rest : suite) : suite :=
  Send (post (sp_authorize s) ∅) (expect_error 400 "invalid_request"
  (Send (post (sp_authorize s) (authorize_form "code" "invalid" (sp_primary_redirect s)))
     (expect_refused
  (Send (post (sp_authorize s) (authorize_form "code" (sp_client s) (sp_invalid_redirect s)))
     (expect_error 400 "invalid_request"
  (Send (post_as (sp_client s) "" (sp_authorize s)
           (authorize_form "invalid" (sp_client s) (sp_primary_redirect s)))
     (expect_error 400 "invalid_request"
  (Send {| sr_method := "GET"; sr_path := sp_authorize s; sr_header := ∅;
           sr_form := authorize_form "token" (sp_client s) (sp_primary_redirect s);
           sr_username := sp_client s; sr_password := "" |}
     (fun w => Check (negb (rec_code w =? 404)%Z) rest))))))))).

(** endpoints.go:131-227 and 272-375: the requests that the revocation and the
    introspection endpoint have to refuse; the same in both tests. *)
Definition lookup_refusals (s : spec) (path : string) (rest : suite) : suite :=
  Send (post path ∅) (expect_error 400 "invalid_request"
  (Send (post path (plain_token_form (sp_valid_token s))) (expect_error 400 "invalid_request"
  (Send (post_conf s path ∅) (expect_error 400 "invalid_request"
  (Send (post_conf s path (token_form (sp_valid_token s) "invalid"))
     (expect_error 400 "unsupported_token_type"
  (Send (post_as "unknown" "" path (plain_token_form (sp_valid_token s))) (expect_refused
  (Send (post_as (sp_client s) "" path (plain_token_form (sp_valid_token s))) (expect_refused
  (Send (post_as (sp_public s) "" path (plain_token_form (sp_valid_token s)))
     (expect_error 401 "invalid_client"
  (Send (post_conf s path (plain_token_form (sp_invalid_token s)))
     (expect_error 400 "invalid_request"
  (Send (post_conf s path (plain_token_form (sp_unknown_token s)))
     (expect_code 200 rest))))))))))))))))).

(** endpoints.go:129-255 [RevocationEndpointTest]. *)
Definition revocation_endpoint_test (s : spec) (rest : suite) : suite :=
  lookup_refusals s (sp_revocation s)
  (access_token_test s (sp_valid_token s) rest).

(** endpoints.go:258-406 [IntrospectionEndpointTest]. *)
Definition introspection_endpoint_test (s : spec) (rest : suite) : suite :=
  Send {| sr_method := "GET"; sr_path := sp_introspection s; sr_header := ∅; sr_form := ∅;
          sr_username := ""; sr_password := "" |} (expect_error 400 "invalid_request"
  (lookup_refusals s (sp_introspection s)
  (Send (post_conf s (sp_introspection s) (token_form (sp_valid_token s) "access_token"))
     (fun w => check_code w 200 (Check (json_field_bool w "active") rest))))).

(** endpoints.go:409-495 [ProtectedResourceTest]. *)
Definition protected_resource_test (s : spec) (rest : suite) : suite :=
  Send {| sr_method := "GET"; sr_path := sp_resource s; sr_header := ∅; sr_form := ∅;
          sr_username := ""; sr_password := "" |} (fun w =>
    check_code w 401 (check_some (auth_param w "realm") not_empty (Check (is_empty (rw_body w))
  (Send (get_resource s "invalid") (expect_bearer_error 400 "invalid_request"
  (Send (get_resource s ("Bearer " +:+ sp_invalid_token s))
     (expect_bearer_error 401 "invalid_token"
  (Send (get_resource s ("Bearer " +:+ sp_unknown_token s))
     (expect_bearer_error 401 "invalid_token"
  (Send (get_resource s ("Bearer " +:+ sp_expired_token s))
     (expect_bearer_error 401 "invalid_token"
  (Send (get_resource s ("Bearer " +:+ sp_insufficient_token s))
     (expect_bearer_error 403 "insufficient_scope" rest))))))))))))).

(** ** grants.go *)

(** The form of a password grant (for example grants.go:19-24). *)
Definition password_form (user password scope : string) : gmap string string :=
  <["grant_type" := "password"]> (<["username" := user]>
    (<["password" := password]> {[ "scope" := scope ]})).

(** After a successful grant: test both tokens (for example grants.go:131-137). *)
Definition test_tokens (s : spec) (rest : suite) (access refresh : string) : suite :=
  access_token_test s access
    (if seqb refresh "" then rest else refresh_token_test s refresh rest).

(** grants.go:13-138 [PasswordGrantTest]. *)
Definition password_grant_test (s : spec) (rest : suite) : suite :=
  let form user password scope := password_form user password scope in
  let ok := form (sp_owner s) (sp_owner_password s) (sp_valid_scope s) in
  Send (post_as (sp_client s) "invalid" (sp_token s) ok) (expect_error 401 "invalid_client"
  (Send (post_conf s (sp_token s) (form "invalid" (sp_owner_password s) (sp_valid_scope s)))
     (expect_error 403 "access_denied"
  (Send (post_conf s (sp_token s) (form (sp_owner s) "invalid" (sp_valid_scope s)))
     (expect_error 403 "access_denied"
  (Send (post_conf s (sp_token s) (form (sp_owner s) (sp_owner_password s) (sp_invalid_scope s)))
     (expect_error 400 "invalid_scope"
  (Send (post_conf s (sp_token s) (form (sp_owner s) (sp_owner_password s) (sp_exceeding_scope s)))
     (expect_error 400 "invalid_scope"
  (Send (post_conf s (sp_token s) ok) (expect_tokens s (test_tokens s rest)))))))))))).

(** The form of a client credentials grant (for example grants.go:148-151). *)
Definition client_form (scope : string) : gmap string string :=
  <["grant_type" := "client_credentials"]> {[ "scope" := scope ]}.

(** grants.go:141-240 [ClientCredentialsGrantTest]. *)
Definition client_credentials_grant_test (s : spec) (rest : suite) : suite :=
  Send (post_as (sp_client s) "invalid" (sp_token s) (client_form (sp_valid_scope s)))
    (expect_refused
  (Send (post_as (sp_public s) "" (sp_token s) (client_form (sp_valid_scope s)))
    (expect_refused
  (Send (post_conf s (sp_token s) (client_form (sp_invalid_scope s)))
    (expect_error 400 "invalid_scope"
  (Send (post_conf s (sp_token s) (client_form (sp_exceeding_scope s)))
    (expect_error 400 "invalid_scope"
  (Send (post_conf s (sp_token s) (client_form (sp_valid_scope s)))
    (expect_tokens s (test_tokens s rest)))))))))).

(** The form of an authorization request (for example grants.go:248-254). *)
Definition approval_form (s : spec) (response_type scope : string) : gmap string string :=
  <["scope" := scope]> (<["state" := "xyz"]>
    (authorize_form response_type (sp_client s) (sp_primary_redirect s))).
(** An authorization request with parameters and headers of the spec (for example
    grants.go:245-255). *)
Definition approval (s : spec) (params hdrs : option (gmap string string))
  (response_type scope : string) : test_request :=
  {| sr_method := "POST"; sr_path := sp_authorize s; sr_header := extend hdrs ∅;
     sr_form := extend params (approval_form s response_type scope);
     sr_username := ""; sr_password := "" |}.

(** [fragment] or [query], depending on the response type. *)
Definition loc_param (response_type : string) (w : rw) (key : string) : option string :=
  if seqb response_type "token" then loc_fragment w key else loc_query w key.
(** The callback for an error sent to the redirect URI (for example
    grants.go:256-260). *)
Definition expect_redirected_error (response_type name : string) (rest : suite) (w : rw) : suite :=
  check_code w 303 (check_some (loc_param response_type w "error") (is_value name)
    (check_some (loc_param response_type w "state") (is_value "xyz") rest)).

(** grants.go:245-322 and 355-432: the authorization requests that have to be
    refused; the same in both tests but for the response type. *)
Definition approval_refusals (s : spec) (response_type : string) (rest : suite) : suite :=
  Send (approval s (sp_valid_params s) (sp_valid_headers s) response_type (sp_invalid_scope s))
    (expect_redirected_error response_type "invalid_scope"
  (Send (approval s (sp_valid_params s) (sp_valid_headers s) response_type (sp_exceeding_scope s))
    (expect_redirected_error response_type "invalid_scope"
  (Send (post (sp_authorize s) (approval_form s response_type (sp_valid_scope s)))
    (expect_redirected_error response_type "access_denied"
  (Send (approval s (sp_invalid_params s) (sp_invalid_headers s) response_type (sp_valid_scope s))
    (expect_redirected_error response_type "access_denied" rest))))))).

(** grants.go:243-350 [ImplicitGrantTest]. *)
Definition implicit_grant_test (s : spec) (rest : suite) : suite :=
  approval_refusals s "token"
  (Send (approval s (sp_valid_params s) (sp_valid_headers s) "token" (sp_valid_scope s)) (fun w =>
    check_code w 303
    (check_some (loc_fragment w "token_type") (is_value "bearer")
    (check_some (loc_fragment w "scope") (is_value (sp_valid_scope s))
    (check_some (loc_fragment w "expires_in") (is_value (itoa (sp_expires_in s)))
    (check_some (loc_fragment w "state") (is_value "xyz")
    (check_some (loc_fragment w "refresh_token") is_empty
    (match loc_fragment w "access_token" with
     | None => Crash
     | Some access => Check (not_empty access) (access_token_test s access rest)
     end)))))))).

(** The form of an authorization code grant (for example grants.go:467-472). *)
Definition code_form (s : spec) (code redirect : string) : gmap string string :=
  <["grant_type" := "authorization_code"]> (<["scope" := sp_valid_scope s]>
    (<["code" := code]> {[ "redirect_uri" := redirect ]})).
(** grants.go:436-456, 602-622: get a code. *)
Definition get_code (s : spec) (k : string -> suite) : suite :=
  Send (approval s (sp_valid_params s) (sp_valid_headers s) "code" (sp_valid_scope s)) (fun w =>
    check_code w 303 (check_some (loc_query w "state") (is_value "xyz")
    (match loc_query w "code" with
     | None => Crash
     | Some code => Check (not_empty code) (k code)
     end))).

(** grants.go:353-695 [AuthorizationCodeGrantTest]. *)
Definition code_grant_test (s : spec) (rest : suite) : suite :=
  let form code := code_form s code (sp_primary_redirect s) in
  approval_refusals s "code"
  (get_code s (fun code =>
  (Send (post_as (sp_client s) "invalid" (sp_token s) (form (sp_invalid_code s)))
     (expect_error 401 "invalid_client"
  (Send (post_conf s (sp_token s) (form (sp_invalid_code s)))
     (expect_error 400 "invalid_request"
  (Send (post_conf s (sp_token s) (form (sp_unknown_code s)))
     (expect_error 400 "invalid_grant"
  (Send (post_conf s (sp_token s) (form (sp_expired_code s)))
     (expect_error 400 "invalid_grant"
  (Send (post_as (sp_public s) "" (sp_token s) (form code))
     (expect_error 400 "invalid_grant"
  (Send (post_conf s (sp_token s) (code_form s code (sp_secondary_redirect s)))
     (expect_error 400 "invalid_grant"
  (Send (post_conf s (sp_token s) (form code)) (expect_tokens s (test_tokens s
  (get_code s (fun code =>
  (Send (post_conf s (sp_token s) (form code)) (expect_tokens s (fun access refresh =>
  (Send (post_conf s (sp_token s) (form code)) (expect_error 400 "invalid_grant"
  (if sp_replay s then
     Send (get_resource s ("Bearer " +:+ access)) (expect_code 401
       (refresh_spent s refresh rest))
   else rest))))))))))))))))))))))))).

(** grants.go:698-793 [RefreshTokenGrantTest]. *)
Definition refresh_grant_test (s : spec) (rest : suite) : suite :=
  Send (post_as (sp_client s) "invalid" (sp_token s) (refresh_form (sp_valid_refresh s)))
    (expect_error 401 "invalid_client"
  (Send (post_conf s (sp_token s) (refresh_form (sp_invalid_refresh s)))
    (expect_error 400 "invalid_request"
  (Send (post_conf s (sp_token s) (refresh_form (sp_unknown_refresh s)))
    (expect_error 400 "invalid_grant"
  (Send (post_conf s (sp_token s) (refresh_form (sp_expired_refresh s)))
    (expect_error 400 "invalid_grant"
  (Send (post_as (sp_public s) "" (sp_token s) (refresh_form (sp_valid_refresh s)))
    (expect_error 400 "invalid_grant"
  (Send (post_conf s (sp_token s)
           (<["scope" := sp_exceeding_scope s]> (refresh_form (sp_valid_refresh s))))
    (expect_error 400 "invalid_scope"
  (refresh_token_test s (sp_valid_refresh s) rest)))))))))))).

(** ** spec.go, [Run] *)

(** utils.go:11-15 [must]. *)
Definition must (ok : bool) (rest : suite) : suite := if ok then rest else Crash.
(** One subtest that is run on a condition. *)
Definition when (cond : bool) (test : suite -> suite) (rest : suite) : suite :=
  if cond then test rest else rest.
(** [m != nil]. *)
Definition given (m : option (gmap string string)) : bool :=
  match m with Some _ => true | None => false end.

(** spec.go:121-220 [Run]; the handler itself is given to [run_suite]. *)
Definition run_spec (s : spec) : suite :=
  must (not_empty (sp_token s))
  (must (not_empty (sp_authorize s))
  (must (not_empty (sp_resource s))
  (must (not_empty (sp_client s))
  (must (not_empty (sp_secret s))
  (must (not_empty (sp_public s))
  (must (not_empty (sp_invalid_scope s))
  (must (not_empty (sp_valid_scope s))
  (must (not_empty (sp_exceeding_scope s))
  (must (not_empty (sp_invalid_token s))
  (must (not_empty (sp_valid_token s))
  (must (not_empty (sp_unknown_token s))
  (must (not_empty (sp_expired_token s))
  (protected_resource_test s
  (when (sp_password_grant s || sp_client_credentials_grant s || sp_code_grant s
         || sp_refresh_grant s) (token_endpoint_test s)
  (when (sp_implicit_grant s || sp_code_grant s)
     (fun rest =>
        must (not_empty (sp_invalid_redirect s))
        (must (not_empty (sp_primary_redirect s))
        (must (not_empty (sp_secondary_redirect s))
        (authorization_endpoint_test s rest))))
  (when (sp_password_grant s)
     (fun rest =>
        must (not_empty (sp_owner s))
        (must (not_empty (sp_owner_password s)) (password_grant_test s rest)))
  (when (sp_client_credentials_grant s) (client_credentials_grant_test s)
  (when (sp_implicit_grant s)
     (fun rest =>
        must (given (sp_invalid_params s) || given (sp_invalid_headers s))
        (must (given (sp_valid_params s) || given (sp_valid_headers s))
        (implicit_grant_test s rest)))
  (when (sp_code_grant s)
     (fun rest =>
        must (given (sp_invalid_params s) || given (sp_invalid_headers s))
        (must (given (sp_valid_params s) || given (sp_valid_headers s))
        (must (not_empty (sp_invalid_code s))
        (must (not_empty (sp_unknown_code s))
        (must (not_empty (sp_expired_code s)) (code_grant_test s rest))))))
  (when (sp_refresh_grant s)
     (fun rest =>
        must (not_empty (sp_invalid_refresh s))
        (must (not_empty (sp_unknown_refresh s))
        (must (not_empty (sp_valid_refresh s))
        (must (not_empty (sp_expired_refresh s)) (refresh_grant_test s rest)))))
  (when (not_empty (sp_introspection s)) (introspection_endpoint_test s)
  (when (not_empty (sp_revocation s)) (revocation_endpoint_test s)
   Finish)))))))))))))))))))))).
