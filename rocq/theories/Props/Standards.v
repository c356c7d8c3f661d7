(** C89 to C96: the standards the package implements. *)
From Verif.Model Require Import Server.
From Verif.Spec Require Import TokenSpec ScopeSpec WireSpec RequestSpec ServerSpec Cases RefusalSpec RefusalCases FormSpec
  StandardSpec StandardCases BuilderSpec.
From Verif.Proof Require Import StandardProofs StandardCase.

#[local] Open Scope string_scope.
#[local] Opaque handle parse_token.

(** C89. Revoking or introspecting an invalid token is no error (RFC 7009 and RFC
    7662, sections 2.2). False: a string the server cannot have made is refused, and
    so is the introspection of another client's token. *)
Theorem C89_revoke_refuted : exists ev s r id w, complete_revocation r /\ from_client s r id /\
  ~ authentic s (body_param r "token") /\ serves ev s r w /\ error_document w 400 "invalid_request".
Proof. exact c89_revoke_refuted. Qed.
Print Assumptions C89_revoke_refuted.

Theorem C89_introspect_refuted :
  (exists ev s r id w, complete_introspection r /\ from_client s r id /\
    ~ authentic s (body_param r "token") /\ serves ev s r w /\ error_document w 400 "invalid_request") /\
  (exists ev s r id w, complete_introspection r /\ from_client s r id /\
    foreign_token s (body_param r "token") id /\ serves ev s r w /\ error_document w 401 "invalid_client").
Proof. exact c89_introspect_refuted. Qed.
Print Assumptions C89_introspect_refuted.

(** These are the only tokens that are refused. *)
Theorem C89_revoke_partial : forall ev s r id, complete_revocation r -> from_client s r id ->
  ((exists w, serves ev s r w /\ status w = 200%Z) <->
   authentic s (body_param r "token") /\ ~ foreign_token s (body_param r "token") id).
Proof. exact c89_revoke. Qed.
Print Assumptions C89_revoke_partial.

Theorem C89_introspect_partial : forall ev s r id, complete_introspection r -> from_client s r id ->
  ((exists w, serves ev s r w /\ status w = 200%Z) <->
   authentic s (body_param r "token") /\ ~ foreign_token s (body_param r "token") id).
Proof. exact c89_introspect. Qed.
Print Assumptions C89_introspect_partial.

(** A token the server could have made but does not know is reported inactive. *)
Theorem C89_unknown_partial : forall ev s r id, complete_introspection r -> from_client s r id ->
  authentic s (body_param r "token") ->
  (forall d, ~ access_token s (body_param r "token") d /\ ~ refresh_token s (body_param r "token") d) ->
  exists w o, serves ev s r w /\ status w = 200%Z /\ json_object w o /\ In ("active", JBool false) o.
Proof. exact c89_unknown. Qed.
Print Assumptions C89_unknown_partial.

(** An authorization code is such a token. *)
Example C89_case :
  let r := lookup_request "/oauth2/introspect" case_auth (code_of step1) in
  complete_introspection r /\ from_client (after step2) r "c1" /\ authentic (after step2) (body_param r "token") /\
  (forall d, ~ access_token (after step2) (body_param r "token") d /\ ~ refresh_token (after step2) (body_param r "token") d).
Proof. exact case_unknown. Qed.

(** C90. A request that repeats a parameter (RFC 6749 sections 3.1 and 3.2), or
    authenticates its client in two ways (section 2.3), is refused. False. *)
Theorem C90_repeated_refuted : exists ev s r body, endpoint r "token" /\ carries r body [] /\ repeats_a_parameter body /\
  gives_token ev s r.
Proof. exact c90_repeated_refuted. Qed.
Print Assumptions C90_repeated_refuted.

Theorem C90_two_ways_refuted : exists ev s r body, endpoint r "token" /\ carries r body [] /\ authenticates_twice r body /\
  gives_token ev s r.
Proof. exact c90_two_ways_refuted. Qed.
Print Assumptions C90_two_ways_refuted.

(** What holds: the first one counts. Repetitions change nothing at any endpoint. *)
Theorem C90_first_counts_partial : forall ev s r r' body query body' query' w,
  carries r body query -> carries r' body' query' -> same_but_fields r r' ->
  with_repetitions body body' -> with_repetitions (body ++ query)%list (body' ++ query')%list ->
  serve_http ev s r' w = serve_http ev s r w.
Proof. exact c90_first. Qed.
Print Assumptions C90_first_counts_partial.

(** And the header counts: with it, the client of the body changes nothing. *)
Theorem C90_header_counts_partial : forall ev s r r' body query w,
  carries r body query -> carries r' (without_client body) query -> same_but_fields r r' ->
  (exists id secret, basic_header r id secret) -> ~ endpoint r "authorize" ->
  serve_http ev s r' w = serve_http ev s r w.
Proof. exact c90_header. Qed.
Print Assumptions C90_header_counts_partial.

Example C90_case :
  carries once_named once_named_fields [] /\ carries twice_named twice_named_fields [] /\ same_but_fields once_named twice_named /\
  with_repetitions once_named_fields twice_named_fields /\
  carries two_secrets two_secrets_fields [] /\ without_client two_secrets_fields = once_named_fields /\
  same_but_fields two_secrets once_named /\ basic_header two_secrets "c1" "s1".
Proof.
  destruct case_twice as (H1 & H2 & H3). split; [exact H2|]. split; [exact H1|]. split; [repeat split|].
  split; [exact case_repetitions|]. split; [exact H3|]. split; [reflexivity|]. split; [repeat split|].
  apply case_auth_header. reflexivity.
Qed.

(** C91. Client id and secret are encoded as form data in the Basic header (RFC 6749
    section 2.3.1). False of the server, which refuses a client that does so, and of
    the client, whose header cannot be read so. *)
Theorem C91_server_refuted : exists ev s r id secret w, complete_token_request r /\ encoded_basic_header r id secret /\
  authenticates s id secret /\ serves ev s r w /\ error_document w 401 "invalid_client".
Proof. exact c91_server_refuted. Qed.
Print Assumptions C91_server_refuted.

Theorem C91_client_refuted : exists uri q r, build_token_request uri q = Some r /\
  ~ encoded_basic_header r (tq_client_id q) (tq_client_secret q).
Proof. exact c91_client_refuted. Qed.
Print Assumptions C91_client_refuted.

(** What holds: the server accepts headers in which the encoding changed nothing. *)
Theorem C91_server_partial : forall s r x y id secret, basic_header r x y -> stands_for x id -> stands_for y secret ->
  unencoded x -> unencoded y -> authenticates s id secret -> from_client s r id.
Proof. exact c91_partial. Qed.
Print Assumptions C91_server_partial.

(** Server and client both take id and secret as they are. *)
Theorem C91_server_exact : forall s r id secret id', basic_header r id secret ->
  (from_client s r id' <-> id' = id /\ authenticates s id secret).
Proof. exact c91_verbatim. Qed.
Print Assumptions C91_server_exact.

Theorem C91_client_exact : forall uri q r, build_token_request uri q = Some r -> without ":" (tq_client_id q) ->
  tq_client_id q <> "" \/ tq_client_secret q <> "" -> basic_header r (tq_client_id q) (tq_client_secret q).
Proof. exact c91_sent. Qed.
Print Assumptions C91_client_exact.

Theorem C91_client_lookups_exact : forall uri q r,
  build_introspection_request uri q = Some r \/ build_revocation_request uri q = Some r ->
  without ":" (lq_client_id q) -> lq_client_id q <> "" \/ lq_client_secret q <> "" ->
  basic_header r (lq_client_id q) (lq_client_secret q).
Proof. exact c91_sent_lookups. Qed.
Print Assumptions C91_client_lookups_exact.

Example C91_case : exists x y, basic_header (client_request case_auth) x y /\ stands_for x "c1" /\ stands_for y "s1" /\
  unencoded x /\ unencoded y /\ authenticates case_server "c1" "s1".
Proof. exact case_plain_header. Qed.
Example C91_case_client : exists r, build_token_request "https://a.example/oauth2/token" percent_token_request = Some r /\
  without ":" (tq_client_id percent_token_request) /\ tq_client_id percent_token_request <> "".
Proof. eexists. split; [vm_compute; reflexivity|]. split; [vm_compute; intuition discriminate|discriminate]. Qed.

(** C92. The client credentials grant gives no refresh token (RFC 6749 section
    4.4.3). False. *)
Theorem C92_client_credentials_refuted : exists ev s r w o x, endpoint r "token" /\
  body_param r "grant_type" = "client_credentials" /\
  serves ev s r w /\ status w = 200%Z /\ json_object w o /\ In ("refresh_token", JStr x) o /\ x <> "".
Proof. exact c92_refuted. Qed.
Print Assumptions C92_client_credentials_refuted.

(** What holds: every grant of the token endpoint gives one, which the client may use
    if the random source did not repeat itself; the implicit grant gives none. *)
Theorem C92_refresh_tokens_partial : forall ev s r s' t, handle ev s r = Done s' (OToken t) ->
  (endpoint r "token" -> tr_refresh_token t <> "" /\
     ((forall d, ~ refresh_token s (tr_refresh_token t) d) ->
      exists d, refresh_token s' (tr_refresh_token t) d /\ cd_client_id d = fst (client_credentials r))) /\
  (endpoint r "authorize" -> tr_refresh_token t = "").
Proof. exact c92_every. Qed.
Print Assumptions C92_refresh_tokens_partial.

Example C92_case : exists s' t, handle (case_env 1 (rand1 +:+ rand2)) case_server (client_request case_auth) = Done s' (OToken t) /\
  sv_refresh case_server = ∅.
Proof. eexists _, _. split; vm_compute; reflexivity. Qed.

(** C93. The errors of the token endpoint are those of RFC 6749 section 5.2: one of
    its codes, true of the request, with its status. False. *)
Theorem C93_errors_refuted : exists ev s r w code name, endpoint r "token" /\ serves ev s r w /\
  error_document w code name /\ ~ conforms ev s r code name.
Proof. exact c93_refuted. Qed.
Print Assumptions C93_errors_refuted.

(** What holds: there are five deviations and no others. *)
Theorem C93_errors_partial : forall ev s r w, endpoint r "token" -> serves ev s r w ->
  status w = 200%Z \/ exists code name, error_document w code name /\
    (conforms ev s r code name \/ deviates ev s r code name).
Proof. exact c93_partial. Qed.
Print Assumptions C93_errors_partial.

(** And each of them is one. *)
Theorem C93_errors_exact : forall ev s r code name, endpoint r "token" -> deviates ev s r code name ->
  (exists w, serves ev s r w /\ error_document w code name) /\ ~ conforms ev s r code name.
Proof. exact c93_exact. Qed.
Print Assumptions C93_errors_exact.

(** An answer with status 401 has a challenge for the Basic scheme, and no other has
    one. *)
Theorem C93_challenge : forall ev s r w, serves ev s r w ->
  (status w = 401%Z -> header_values w "Www-Authenticate" = ["Basic realm=" +:+ in_quotes "OAuth2"]) /\
  (status w <> 401%Z -> header_values w "Www-Authenticate" = []).
Proof. exact c93_challenge. Qed.
Print Assumptions C93_challenge.

(** An unknown grant type, a wrong password, a public client, a code and a refresh
    token that are none. *)
Example C93_case_deviates :
  deviates (case_env 1 rand1) case_server bad_grant 400 "invalid_request" /\
  deviates (case_env 1 rand1) case_server bad_password 403 "access_denied" /\
  deviates (case_env 1 rand1) case_server (client_request case_auth2) 401 "invalid_client" /\
  deviates (case_env 1 rand1) case_server (redeem_request case_auth "nonsense") 400 "invalid_request" /\
  deviates (case_env 1 rand1) case_server (refresh_request case_auth "nonsense") 400 "invalid_request".
Proof. exact case_deviates. Qed.
Example C93_case :
  conforms (case_env 1 rand1) case_server (password_request case_auth "read admin") 400 "invalid_scope" /\
  conforms (case_env 1 rand1) case_server (password_request (basic_auth_header "c1" "x") "read") 401 "invalid_client".
Proof. exact case_conforms. Qed.

(** C94. The authorization endpoint sends its errors to the client, unless the client
    or the redirect URI is wrong, and the redirect URI may be left out if one is
    registered (RFC 6749 sections 3.1.2.3 and 4.1.2.1). False: a response type it
    does not know is answered by an error document, and so is a missing redirect
    URI. *)
Theorem C94_response_type_refuted : exists ev s r c w, endpoint r "authorize" /\ well_addressed s r c /\ rq_method r = "POST" /\
  ~ In (form_param r "response_type") response_types /\ serves ev s r w /\ error_document w 400 "invalid_request".
Proof. exact c94_type_refuted. Qed.
Print Assumptions C94_response_type_refuted.

Theorem C94_no_uri_refuted : exists ev s r c w, endpoint r "authorize" /\
  sv_clients s !! form_param r "client_id" = Some c /\ passes_as_uri (en_redirect_uri c) /\ en_redirect_uri c <> "" /\
  In (form_param r "response_type") response_types /\ form_param r "redirect_uri" = "" /\
  serves ev s r w /\ error_document w 400 "invalid_request".
Proof. exact c94_uri_refuted. Qed.
Print Assumptions C94_no_uri_refuted.

(** What holds: nothing is sent to a redirect URI unless the client is known and the
    URI is its own. *)
Theorem C94_address : forall ev s r w, serves ev s r w -> header_values w "Location" <> [] -> exists c, well_addressed s r c.
Proof. exact c94_address. Qed.
Print Assumptions C94_address.

(** And if they are, the response type is the only thing that can be wrong without
    the client being told. *)
Theorem C94_told_partial : forall ev s r c w, endpoint r "authorize" -> well_addressed s r c -> serves ev s r w ->
  (~ In (form_param r "response_type") response_types -> error_document w 400 "invalid_request") /\
  (In (form_param r "response_type") response_types -> rq_method r = "GET" -> status w = 200%Z) /\
  (In (form_param r "response_type") response_types -> rq_method r = "POST" -> header_values w "Location" <> []).
Proof. exact c94_exact. Qed.
Print Assumptions C94_told_partial.

Theorem C94_no_uri_exact : forall ev s r, endpoint r "authorize" -> form_param r "redirect_uri" = "" ->
  exists w, serves ev s r w /\ error_document w 400 "invalid_request".
Proof. exact c94_missing_uri. Qed.
Print Assumptions C94_no_uri_exact.

Example C94_case : exists w, serves (case_env 1000 rand1) case_server (odd_type_request "code") w /\
  endpoint (odd_type_request "code") "authorize" /\ well_addressed case_server (odd_type_request "code") case_client /\
  In (form_param (odd_type_request "code") "response_type") response_types.
Proof. exact case_answered. Qed.

(** C95. Revoking a refresh token also ends the access tokens of the same grant (RFC
    7009 section 2.1). False: the access token issued together with it is still
    accepted. *)
Theorem C95_access_refuted : exists ev0 s0 r0 s t ev r s' now r' required,
  handle ev0 s0 r0 = Done s (OToken t) /\ complete_revocation r /\ body_param r "token" = tr_refresh_token t /\
  handle ev s r = Done s' ORevoked /\ bearer r' (tr_access_token t) /\
  authorize now s' r' required new_rw = Some (true, new_rw).
Proof. exact c95_refuted. Qed.
Print Assumptions C95_access_refuted.

(** What holds: a revocation has an effect on the named token and on no other. *)
Theorem C95_others_partial : forall ev s r s' sg, handle ev s r = Done s' ORevoked -> names (server_secret s) (body_param r "token") sg ->
  (forall now r' str required w, bearer r' str -> ~ names (server_secret s) str sg ->
     authorize now s' r' required w = authorize now s r' required w) /\
  (forall str d, ~ names (server_secret s) str sg -> (refresh_token s' str d <-> refresh_token s str d)).
Proof. exact c95_partial. Qed.
Print Assumptions C95_others_partial.

Example C95_case : exists s' sg, handle (case_env 1002 rand3) (after step2) revoke_refresh = Done s' ORevoked /\
  names (server_secret (after step2)) (body_param revoke_refresh "token") sg /\
  bearer (bearer_request (access_of step2)) (access_of step2) /\ ~ names (server_secret (after step2)) (access_of step2) sg.
Proof. exact case_other. Qed.

(** C96. Presenting a refresh token a second time ends the tokens that replaced it
    (RFC 6819 section 5.2.2.3). False: the second request is refused, but the access
    token and the refresh token of the first remain. *)
Theorem C96_successors_refuted : exists ev s0 r id s t ev' w now r' required d,
  token_request_for s0 r id "refresh_token" /\ handle ev s0 r = Done s (OToken t) /\
  serve_http ev' s r new_rw = (s, Some w) /\ status w = 400%Z /\
  bearer r' (tr_access_token t) /\ authorize now s r' required new_rw = Some (true, new_rw) /\
  refresh_token s (tr_refresh_token t) d.
Proof. exact c96_refuted. Qed.
Print Assumptions C96_successors_refuted.

(** What holds: a refresh token that is not registered, a used one for example, is
    refused, and the server stays as it is. *)
Theorem C96_refused_partial : forall ev s r id, token_request_for s r id "refresh_token" ->
  (forall d, ~ refresh_token s (body_param r "refresh_token") d) ->
  exists w, serve_http ev s r new_rw = (s, Some w) /\
    (error_document w 400 "invalid_grant" \/ error_document w 400 "invalid_request").
Proof. exact c96_partial. Qed.
Print Assumptions C96_refused_partial.

Example C96_case : token_request_for (after step2) rotate "c1" "refresh_token" /\ token_request_for (after step3) rotate "c1" "refresh_token" /\
  forall d, ~ refresh_token (after step3) (body_param rotate "refresh_token") d.
Proof. exact case_rotate. Qed.
